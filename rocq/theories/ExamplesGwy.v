(** C81 in real numbers, concrete Gwyddion files, and what does not hold of the reader. *)
From Coq Require Import String Ascii ZArith Lia Bool Reals Lra Permutation.
From Coq Require Import List.
From Flocq Require Import IEEE754.BinarySingleNaN IEEE754.Binary IEEE754.Bits Core.
From Verif Require Import Base ModelBytes ModelUnits ModelSur ModelFormats ModelReaders ModelGwy SpecReaders SpecGwy ProofBytes PropsMagic PropsLayout ProofReaders ProofGwy PropsGwy ProofGwySurface PropsGwySurface PropsGwyLayers
  ProofFloat PropsSdf PropsVkValue ProofApx PropsUnits.
Import ListNotations.
Local Open Scope list_scope.
Local Open Scope R_scope.

(** 10^e is off by one rounding at most *)
Lemma lookup_range t u e : (forall k x, In (k, x) t -> (-12 <= x <= 0)%Z) -> lookup t u = Some e -> (-12 <= e <= 0)%Z.
Proof.
  induction t as [|[k x] t IH]; cbn [lookup]; intros H E; [discriminate|]. destruct (zs_eqb k u).
  - injection E as <-. apply (H k). left. reflexivity.
  - apply IH; [|exact E]. intros k' x' I'. apply (H k'). right. exact I'.
Qed.
Lemma resolve_range u e : resolve u = Some e -> (-12 <= e <= 0)%Z.
Proof.
  assert (T : forall k x, In (k, x) unit_table -> (-12 <= x <= 0)%Z).
  { intros k x H. unfold unit_table in H. repeat (destruct H as [H|H]; [injection H as _ <-; lia|]). destruct H. }
  unfold resolve. destruct (lookup unit_table u) eqn:E; [intros H; injection H as <-; exact (lookup_range _ _ _ T E)|apply lookup_range, T].
Qed.
Lemma exponent_range lower u e : lower_ok lower -> conversion_exponent lower u (str "um") = Ok e -> (-6 <= e <= 6)%Z.
Proof.
  intros Hl H. unfold conversion_exponent in H. destruct (resolve (lower (sanitize_mu u))) as [e1|] eqn:E1; [|discriminate].
  rewrite (lower_latin lower Hl (str "um")) in H by (change (str "um") with [117; 109]%Z; apply Forall_cons; [left; lia|apply Forall_cons; [left; lia|apply Forall_nil]]). change (resolve (map lower_char (str "um"))) with (Some (-6)%Z) in H.
  apply ok_inj in H. apply resolve_range in E1. lia.
Qed.
Lemma pow10_apx e : (-6 <= e <= 6)%Z -> apx 1 (pow10 e) (powerRZ 10 e) /\ sized_r 20 20 (powerRZ 10 e).
Proof.
  intros H.
  assert (P : forall n : Z, (0 <= n <= 6)%Z -> (R64 (f64_of_Z (10 ^ n)) = IZR (10 ^ n) /\ fin64 (f64_of_Z (10 ^ n))) /\ 1 <= IZR (10 ^ n) <= 1000000).
  { intros n Hn. assert (B : (1 <= 10 ^ n <= 1000000)%Z).
    { split; [change 1%Z with (10 ^ 0)%Z|change 1000000%Z with (10 ^ 6)%Z]; apply Z.pow_le_mono_r; lia. }
    split; [apply f64_of_Z_ok; change (2 ^ 53)%Z with 9007199254740992%Z; lia|]. split; apply IZR_le; lia. }
  assert (Z10 : forall n : Z, (0 <= n)%Z -> powerRZ 10 n = IZR (10 ^ n)).
  { intros n Hn. rewrite <- (Z2Nat.id n Hn). rewrite <- pow_powerRZ, pow_IZR. reflexivity. }
  assert (b20 : bpow radix2 20 = 1048576) by (cbn; lra). assert (bm20 : bpow radix2 (-20) = / 1048576) by (cbn; lra).
  unfold pow10. destruct (Z.leb_spec 0 e) as [L|L].
  - destruct (P e ltac:(lia)) as [[E F] B]. rewrite (Z10 e L). split.
    + rewrite <- E. destruct (apx_exact _ F) as (_ & d & D1 & D2). split; [exact F|]. exists 0. split; [ring|]. rewrite Rabs_R0. pose proof e53_small. cbn. lra.
    + right. change (- (20))%Z with (-20)%Z. rewrite b20, bm20, Rabs_pos_eq by lra. lra.
  - destruct (P (- e)%Z ltac:(lia)) as [[E F] B]. destruct (f64_of_Z_ok 1 ltac:(cbn; lia)) as [E1 F1].
    assert (V : powerRZ 10 e = 1 * / IZR (10 ^ (- e))).
    { rewrite <- Z10 by lia. rewrite powerRZ_neg', Rinv_inv, Rmult_1_l. reflexivity. }
    rewrite V. split.
    + rewrite <- E. change 1%nat with (S 0). replace (1 * / R64 (f64_of_Z (10 ^ (- e)))) with (R64 (f64_of_Z 1) / R64 (f64_of_Z (10 ^ (- e)))) by (rewrite E1; reflexivity).
      apply (apx_div 0 _ _ _ 0 0 0 20).
      * apply apx_exact, F1.
      * exact F.
      * rewrite E. lra.
      * right. rewrite E1, Rabs_pos_eq by lra. cbn. lra.
      * rewrite E, b20, Rabs_pos_eq by lra. cbn. lra.
      * lia.
      * lia.
      * lia.
    + right. change (- (20))%Z with (-20)%Z. rewrite b20, bm20, Rmult_1_l, Rabs_pos_eq by (left; apply Rinv_0_lt_compat; lra).
      split; [apply Rinv_le; lra|]. rewrite <- (Rinv_inv 1048576). apply Rinv_le; [lra|]. lra.
Qed.

Lemma two : (1 + e53) ^ 2 - 1 <= bpow radix2 (-51).
Proof.
  change (-51)%Z with (2 + -53)%Z. rewrite bpow_plus, <- e53_bpow. change (bpow radix2 2) with 4. pose proof e53_small as [H1 H2]. simpl.
  replace ((1 + e53) * ((1 + e53) * 1) - 1) with (e53 * (2 + e53)) by ring. rewrite (Rmult_comm 4). apply Rmult_le_compat_l; lra.
Qed.
Lemma three : (1 + e53) ^ 3 - 1 <= bpow radix2 (-51).
Proof.
  change (-51)%Z with (2 + -53)%Z. rewrite bpow_plus, <- e53_bpow. change (bpow radix2 2) with 4. pose proof e53_small as [H1 H2]. simpl.
  replace ((1 + e53) * ((1 + e53) * ((1 + e53) * 1)) - 1) with (e53 * (3 + e53 * (3 + e53))) by ring. rewrite (Rmult_comm 4). apply Rmult_le_compat_l; [lra|].
  assert (e53 * (3 + e53) <= 1) by (apply Rle_trans with (/ 1024 * 4); [apply Rmult_le_compat; lra|lra]). lra.
Qed.
(** a number of ordinary size *)
Definition ordinary (x : f64) : Prop := Binary.is_finite 53 1024 x = true /\ (val x = 0 \/ bpow radix2 (-900) <= Rabs (val x) <= bpow radix2 900).
Definition close (x : f64) (exact : R) : Prop := Binary.is_finite 53 1024 x = true /\ Rabs (val x - exact) <= bpow radix2 (-51) * Rabs exact.
(** C81: heights and steps are the values of the file in its units, converted to micrometres, up to a relative error of 2^-51; the
    factors are those of C43 *)
Theorem C81_gwy_micrometres : forall lower c k f s, lower_ok lower -> heights_of lower c k f s ->
  exists uz fz fxy, field_unit c k "si_unit_z" = Some (GStr uz) /\
    get_unit_conversion lower uz (str "um") = Ok fz /\ get_unit_conversion lower (f_uxy f) (str "um") = Ok fxy /\
    table_is (rdata s) (Z.to_nat (f_ny f)) (Z.to_nat (f_nx f)) (fun i j x => let p := (i * Z.to_nat (f_nx f) + j)%nat in
      (masked c k p -> x = nan64) /\
      (~ masked c k p -> exists v, nth_error (f_data f) p = Some v /\ (ordinary v -> close x (val v * fz)))) /\
    ((f_nx f <= 2 ^ 53)%Z -> ordinary (f_x f) -> close (rstep_x s) (val (f_x f) / IZR (f_nx f) * fxy)) /\
    ((f_ny f <= 2 ^ 53)%Z -> ordinary (f_y f) -> close (rstep_y s) (val (f_y f) / IZR (f_ny f) * fxy)).
Proof.
  intros lower c k f s Hl (_ & _ & _ & Px & Py & _ & _ & _ & uz & ez & exy & U & E1 & E2 & S1 & S2 & T1 & T2).
  exists uz, (powerRZ 10 ez), (powerRZ 10 exy). split; [exact U|]. unfold get_unit_conversion. rewrite E1, E2. split; [reflexivity|]. split; [reflexivity|].
  destruct (pow10_apx ez (exponent_range _ _ _ Hl E1)) as [A1 B1]. destruct (pow10_apx exy (exponent_range _ _ _ Hl E2)) as [A2 B2].
  assert (St : forall n x, (0 < n)%Z -> (n <= 2 ^ 53)%Z -> ordinary x -> close (fmul (fdiv x (f64_of_Z n)) (pow10 exy)) (val x / IZR n * powerRZ 10 exy)).
  { intros n x Hn Hm [F S]. destruct (f64_of_Z_ok n ltac:(lia)) as [Z1 Z2]. assert (Bn : 1 <= IZR n <= bpow radix2 53).
    { split; [apply IZR_le; lia|]. change (bpow radix2 53) with (IZR (2 ^ 53)). apply IZR_le; lia. }
    assert (Rn : bpow radix2 0 <= Rabs (R64 (f64_of_Z n)) <= bpow radix2 53) by (rewrite Z1, Rabs_pos_eq by lra; change (bpow radix2 0) with 1; lra).
    assert (Sx : sized_r 900 900 (R64 x)) by (destruct S as [S|S]; [left; exact S|right; exact S]).
    pose proof (apx_div 0 x _ (f64_of_Z n) 900 900 0 53 (apx_exact x F) Z2 ltac:(rewrite Z1; lra) Sx Rn ltac:(lia) ltac:(lia) ltac:(lia)) as A. rewrite Z1 in A.
    assert (Sr : sized_r 53 0 (/ IZR n)).
    { right. rewrite Rabs_inv, <- Z1. rewrite (bpow_opp radix2 53). rewrite Z1, Rabs_pos_eq by lra. split; [apply Rinv_le; lra|]. change (bpow radix2 0) with 1. rewrite <- Rinv_1. apply Rinv_le; lra. }
    pose proof (sized_mult _ _ _ _ _ _ Sx Sr) as S3.
    pose proof (apx_mult 1 1 3 _ _ _ _ _ _ _ _ A A2 S3 B2 eq_refl ltac:(lia) ltac:(lia) ltac:(lia) ltac:(lia)) as A3.
    split; [exact (proj1 A3)|exact (apx_err 3 _ _ _ A3 three)]. }
  split; [|split; [rewrite S1; apply St, Px|rewrite S2; apply St, Py]].
  split; [exact T1|]. intros i Hi. destruct (T2 i Hi) as (row & R1 & R2 & R3). exists row. split; [exact R1|]. split; [exact R2|].
  intros j Hj. destruct (R3 j Hj) as (x & X1 & X2). exists x. split; [exact X1|]. cbv zeta in *. destruct X2 as [X2 X3]. split; [exact X2|].
  intros N. destruct (X3 N) as (v & V1 & ->). exists v. split; [exact V1|]. intros [F S].
  assert (Sv : sized_r 900 900 (R64 v)) by (destruct S as [S|S]; [left; exact S|right; exact S]).
  pose proof (apx_mult 0 1 2 _ _ _ _ _ _ _ _ (apx_exact v F) A1 Sv B1 eq_refl ltac:(lia) ltac:(lia) ltac:(lia) ltac:(lia)) as A.
  split; [exact (proj1 A)|exact (apx_err 2 _ _ _ A two)].
Qed.

(** ** Files *)
Local Open Scope Z_scope.
(** UTF-8, for characters below 2048 *)
Definition utf8 (s : pystr) : bytes := flat_map (fun c => if c <? 128 then [c] else [192 + c / 64; 128 + c mod 64]) s.
Definition dbl (z e : Z) : f64 := f64_make z e.
Definition unit_node (u : pystr) : node := NObject (Object (str "GwySIUnit") [(str "unitstr", NText u)]).
Definition data_node (nx ny : Z) (uz : option pystr) (l : list f64) : node :=
  NObject (Object (str "GwyDataField") ([(str "xres", NInt nx); (str "yres", NInt ny); (str "xreal", NFloat (dbl 1 (-1))); (str "yreal", NFloat (dbl 1 0));
    (str "si_unit_xy", unit_node (str "m"))] ++ match uz with Some u => [(str "si_unit_z", unit_node u)] | None => [] end ++ [(str "data", NFloats l)])).
Definition session (items : list (pystr * node)) : object := Object (str "GwyContainer") items.
Definition shown_gwy (r : res (raw * float_layers)) :=
  rmap (fun '(s, l) => (map (map bits_of_b64) (rdata s), bits_of_b64 (rstep_x s), bits_of_b64 (rstep_y s), map (fun '(t, m) => (t, map (map bits_of_b64) m)) l)) r.
Definition bit_of (z e : Z) : Z := bits_of_b64 (f64_make z e).
(** a decision procedure for the trees of the format *)
Definition text_fitsb (s : pystr) : bool :=
  match decode Utf8 (utf8 s) with Ok t => zs_eqb t s | Err _ => false end && negb (existsb (Z.eqb 0) (utf8 s)) && Nat.leb (length (utf8 s)) 4095.
Lemma text_fitsb_ok s : text_fitsb s = true -> text_fits utf8 Utf8 s.
Proof.
  unfold text_fitsb. rewrite !andb_true_iff. intros [[H1 H2] H3]. unfold text_fits. split.
  - destruct (decode Utf8 (utf8 s)); [|discriminate]. apply zs_eqb_eq in H1. subst. reflexivity.
  - split; [|apply Nat.leb_le, H3]. intros F. apply negb_true_iff in H2. assert (existsb (Z.eqb 0) (utf8 s) = true) by (apply existsb_exists; exists 0; auto). congruence.
Qed.
(** three channels: an image without z unit, one in nm, and one in m called "Height", the first point of which is masked *)
Definition example_items : list (pystr * node) :=
  [ (str "/0/data", data_node 2 1 None [dbl 3 0; dbl 4 0]); (str "/0/data/title", NText (str "Image"));
    (str "/11/data", data_node 2 1 (Some (str "nm")) [dbl 5 0; dbl 6 0]); (str "/11/data/title", NText (str "Phase"));
    (str "/2/data", data_node 2 1 (Some (str "m")) [dbl 7 0; dbl 1 (-1)]); (str "/2/data/title", NText (str "Raw Height"));
    (str "/2/mask", data_node 2 1 None [dbl 1 0; dbl 0 0]); (str "/2/base/range-type", NInt 1); (str "/filename", NText (str "a.gwy")) ].
Definition example_gwy : bytes := gwy_file utf8 (session example_items).
Example gwy_example :
  shown_gwy (read_gwy (map lower_char) (fun l => l) 10 Utf8 true (opened (example_gwy ++ [1; 2; 3]))) =
    Ok ([[bits_of_b64 nan64; bit_of 500000 0]], bit_of 250000 0, bit_of 1000000 0, [(str "Image", [[bit_of 3 0; bit_of 4 0]])]) /\
  is_ok (read_gwy (map lower_char) (fun l => l) 10 Utf8 true (opened (firstn (length example_gwy - 1) example_gwy))) = false.
Proof. vm_compute. split; reflexivity. Qed.
Ltac text := apply text_fitsb_ok; vm_compute; reflexivity.
Ltac nodup := repeat (constructor; [cbn; intuition discriminate|]); constructor.
Lemma unit_fits u : text_fits utf8 Utf8 u -> fits utf8 Utf8 (unit_node u).
Proof.
  intros H. apply fits_object. apply fits_Object; [text| | |].
  - constructor; [|constructor]. split; [text|]. apply fits_text, H.
  - nodup.
  - unfold small, items_bytes. cbn [flat_map fst snd node_bytes letter]. unfold text_bytes. rewrite !app_length. change (length (utf8 (str "unitstr"))) with 7%nat. cbn [length]. destruct H as (_ & _ & L).
    change (2 ^ 32)%Z with 4294967296%Z. lia.
Qed.
Lemma data_fits nx ny uz a b : (- 2 ^ 31 <= nx < 2 ^ 31) -> (- 2 ^ 31 <= ny < 2 ^ 31) -> In uz [None; Some (str "nm"); Some (str "m"); Some [181; 109]] -> fits utf8 Utf8 (data_node nx ny uz [a; b]).
Proof.
  intros Hx Hy Hu. apply fits_object. apply fits_Object; [text| | |].
  - apply Forall_forall. intros [k v] H. apply in_app_or in H as [H|H].
    + repeat (destruct H as [H|H]; [injection H as <- <-; cbn [fst snd]; split; [text|]; first [apply fits_int; assumption | apply fits_float | apply unit_fits; text]|]). destruct H.
    + apply in_app_or in H as [H|H].
      * destruct Hu as [<-|[<-|[<-|[<-|[]]]]]; [destruct H|destruct H as [H|[]]; injection H as <- <-; cbn [fst snd]; split; [text|]; apply unit_fits; text ..].
      * destruct H as [H|[]]. injection H as <- <-. cbn [fst snd]. split; [text|]. apply fits_floats. unfold small. cbn. lia.
  - destruct Hu as [<-|[<-|[<-|[<-|[]]]]]; cbn [app map fst]; nodup.
  - unfold small. destruct Hu as [<-|[<-|[<-|[<-|[]]]]]; vm_compute; reflexivity.
Qed.
(** the example meets the hypotheses of C80 *)
Example example_fits : object_fits utf8 Utf8 (session example_items) /\ nesting (session example_items) = 3%nat.
Proof.
  split; [|vm_compute; reflexivity]. apply fits_Object; [text| | |].
  - unfold example_items. repeat (apply Forall_cons; [cbn [fst snd]; split; [text|]|]); try apply Forall_nil;
      first [apply data_fits; [lia|lia|cbn; auto] | apply fits_text; text | apply fits_int; lia].
  - nodup.
  - unfold small. vm_compute. reflexivity.
Qed.

(** ** What does not hold *)
Definition readable (items : list (pystr * node)) : Prop :=
  forall order depth im, (forall l, Permutation (order l) l) -> (3 <= depth)%nat ->
    is_ok (read_gwy (map lower_char) order depth Utf8 im (opened (gwy_file utf8 (session items)))) = true.
Definition unreadable (items : list (pystr * node)) : Prop :=
  forall order depth im, (forall l, Permutation (order l) l) -> (3 <= depth)%nat ->
    is_ok (read_gwy (map lower_char) order depth Utf8 im (opened (gwy_file utf8 (session items)))) = false.
Definition container_of (items : list (pystr * node)) : gval := GDict (map (fun kv => (fst kv, node_value (snd kv))) items).
Definition guess_fails (items : list (pystr * node)) (keys : list pystr) : bool :=
  negb (is_ok (rbind (guess_height_channel (map lower_char) (container_of items) keys) (data_field (container_of items)))).
Definition numbers_of (items : list (pystr * node)) : list pystr :=
  nodup pystr_dec (flat_map (fun '(k, _) => match layer_number k with Some n => [n] | None => [] end) (map (fun kv => (fst kv, node_value (snd kv))) items)).
Lemma unreadable_two items a b : object_fits utf8 Utf8 (session items) -> nesting (session items) = 3%nat -> numbers_of items = [a; b] ->
  guess_fails items [a; b] = true -> guess_fails items [b; a] = true -> unreadable items.
Proof.
  intros F N E G1 G2 order depth im Ho Hd. pose proof (C80_gwy_read (map lower_char) order utf8 Utf8 im depth (session items) [] F ltac:(lia)) as R.
  rewrite app_nil_r in R. rewrite R. change (object_value (session items)) with (GDict [(str "GwyContainer", container_of items)]). unfold gwy_surface.
  change (gitem (GDict [(str "GwyContainer", container_of items)]) (str "GwyContainer")) with (Ok (container_of items)). cbn [rbind].
  unfold layer_keys. unfold container_of at 1. fold (numbers_of items). cbn [rbind]. rewrite E.
  assert (G : guess_fails items (order [a; b]) = true).
  { pose proof (Permutation_sym (Ho [a; b])) as P. apply Permutation_length_2_inv in P as [-> | ->]; assumption. }
  revert G. generalize (order [a; b]). intros keys G. unfold guess_fails in G. apply negb_true_iff in G.
  destruct (guess_height_channel (map lower_char) (container_of items) keys) as [k|e]; [|reflexivity]. cbn [rbind] in *.
  destruct (data_field (container_of items) k); [discriminate|reflexivity].
Qed.
Lemma readable_one items a : object_fits utf8 Utf8 (session items) -> nesting (session items) = 3%nat -> numbers_of items = [a] ->
  (forall im, is_ok (gwy_surface (map lower_char) (fun l => l) im (object_value (session items))) = true) -> readable items.
Proof.
  intros F N E G order depth im Ho Hd. pose proof (C80_gwy_read (map lower_char) order utf8 Utf8 im depth (session items) [] F ltac:(lia)) as R.
  rewrite app_nil_r in R. rewrite R. rewrite <- (G im). change (object_value (session items)) with (GDict [(str "GwyContainer", container_of items)]). unfold gwy_surface.
  change (gitem (GDict [(str "GwyContainer", container_of items)]) (str "GwyContainer")) with (Ok (container_of items)). cbn [rbind].
  assert (K : layer_keys order (container_of items) = layer_keys (fun l => l) (container_of items)).
  { unfold layer_keys, container_of. fold (numbers_of items). rewrite E, (Permutation_length_1_inv (Permutation_sym (Ho [a]))). reflexivity. }
  rewrite K. reflexivity.
Qed.
Ltac fit := apply fits_Object; [text| repeat (apply Forall_cons; [cbn [fst snd]; split; [text|]|]); try apply Forall_nil;
      first [apply data_fits; [lia|lia|cbn; auto 6] | apply fits_text; text | apply fits_int; lia] | nodup | unfold small; vm_compute; reflexivity].
Definition one_channel (k : string) (u : pystr) : list (pystr * node) := [(str "/" ++ str k ++ str "/data", data_node 2 1 (Some u) [dbl 7 0; dbl 1 (-1)])].
(** one height channel; with a graph numbered 0 beside it - Gwyddion writes the key of the next graph so - nothing is found *)
Theorem C81_gwy_stray_key_refuted : exists (items : list (pystr * node)) k v,
  object_fits utf8 Utf8 (session items) /\ object_fits utf8 Utf8 (session ((k, v) :: items)) /\ k = str "/0/graph/graph/lastid" /\ readable items /\ unreadable ((k, v) :: items).
Proof.
  exists (one_channel "1" (str "m")), (str "/0/graph/graph/lastid"), (NInt 0).
  assert (F1 : object_fits utf8 Utf8 (session (one_channel "1" (str "m")))) by fit.
  assert (F2 : object_fits utf8 Utf8 (session ((str "/0/graph/graph/lastid", NInt 0) :: one_channel "1" (str "m")))) by fit.
  split; [exact F1|]. split; [exact F2|]. split; [reflexivity|]. split.
  - apply (readable_one _ (str "1") F1); [reflexivity|reflexivity|]. intros [|]; vm_compute; reflexivity.
  - apply (unreadable_two _ (str "0") (str "1") F2); vm_compute; reflexivity.
Qed.
(** two height channels, each of which can be read alone: without titles the file is refused *)
Theorem C81_gwy_untitled_refuted : exists a b : list (pystr * node), object_fits utf8 Utf8 (session (a ++ b)) /\ readable a /\ readable b /\ unreadable (a ++ b).
Proof.
  exists (one_channel "0" (str "m")), (one_channel "1" (str "m")).
  assert (F : object_fits utf8 Utf8 (session (one_channel "0" (str "m") ++ one_channel "1" (str "m")))) by fit.
  split; [exact F|]. split; [|split].
  - apply (readable_one _ (str "0")); [fit|reflexivity|reflexivity|]. intros [|]; vm_compute; reflexivity.
  - apply (readable_one _ (str "1")); [fit|reflexivity|reflexivity|]. intros [|]; vm_compute; reflexivity.
  - apply (unreadable_two _ (str "0") (str "1") F); vm_compute; reflexivity.
Qed.
(** heights in "µm": a unit the conversion knows, but such a channel is not taken for a height channel *)
Theorem C81_gwy_micro_sign_refuted : exists (items : list (pystr * node)) u, object_fits utf8 Utf8 (session items) /\
  conversion_exponent (map lower_char) u (str "um") = Ok 0 /\ field_unit (container_of items) (str "0") "si_unit_z" = Some (GStr u) /\
  forall order depth im, (3 <= depth)%nat -> (forall l, Permutation (order l) l) ->
    read_gwy (map lower_char) order depth Utf8 im (opened (gwy_file utf8 (session items))) = Err UnsupportedFileFormatError.
Proof.
  exists (one_channel "0" [181; 109]), [181; 109]. assert (F : object_fits utf8 Utf8 (session (one_channel "0" [181; 109]))) by fit.
  split; [exact F|]. split; [vm_compute; reflexivity|]. split; [vm_compute; reflexivity|]. intros order depth im Hd Ho.
  pose proof (C80_gwy_read (map lower_char) order utf8 Utf8 im depth _ [] F Hd) as R. rewrite app_nil_r in R. rewrite R.
  change (object_value (session (one_channel "0" [181; 109]))) with (GDict [(str "GwyContainer", container_of (one_channel "0" [181; 109]))]). unfold gwy_surface.
  change (gitem (GDict [(str "GwyContainer", container_of (one_channel "0" [181; 109]))]) (str "GwyContainer")) with (Ok (container_of (one_channel "0" [181; 109]))). cbn [rbind].
  unfold layer_keys. unfold container_of at 1. fold (numbers_of (one_channel "0" [181; 109])). cbn [rbind]. change (numbers_of (one_channel "0" [181; 109])) with [str "0"].
  rewrite (Permutation_length_1_inv (Permutation_sym (Ho [str "0"]))). 
  change (guess_height_channel (map lower_char) (container_of (one_channel "0" [181; 109])) [str "0"]) with (Err (A := pystr) UnsupportedFileFormatError). reflexivity.
Qed.
(** numbers with leading zeros: the chosen number is printed without them, and not found *)
Theorem C81_gwy_leading_zero_refuted : exists a b : list (pystr * node), object_fits utf8 Utf8 (session (a ++ b)) /\ readable a /\ readable b /\ unreadable (a ++ b).
Proof.
  set (t := fun k => [(str "/" ++ str k ++ str "/data/title", NText (str "Height"))]).
  exists (one_channel "007" (str "m") ++ t "007"%string), (one_channel "008" (str "m") ++ t "008"%string).
  assert (F : object_fits utf8 Utf8 (session ((one_channel "007" (str "m") ++ t "007"%string) ++ one_channel "008" (str "m") ++ t "008"%string))) by (unfold t; fit).
  split; [exact F|]. split; [|split].
  - apply (readable_one _ (str "007")); [unfold t; fit|reflexivity|reflexivity|]. intros [|]; vm_compute; reflexivity.
  - apply (readable_one _ (str "008")); [unfold t; fit|reflexivity|reflexivity|]. intros [|]; vm_compute; reflexivity.
  - apply (unreadable_two _ (str "007") (str "008") F); vm_compute; reflexivity.
Qed.
(** two image channels with one title: which of the two is kept depends on the order in which Python happens to walk through a set *)
Theorem C81_gwy_layers_order_refuted : exists (items : list (pystr * node)) order order', object_fits utf8 Utf8 (session items) /\
  (forall l, Permutation (order l) l) /\ (forall l, Permutation (order' l) l) /\
  forall depth, (3 <= depth)%nat ->
    exists s l l', read_gwy (map lower_char) order depth Utf8 true (opened (gwy_file utf8 (session items))) = Ok (s, l) /\
      read_gwy (map lower_char) order' depth Utf8 true (opened (gwy_file utf8 (session items))) = Ok (s, l') /\ ~ Permutation l l'.
Proof.
  set (img := fun k z => [(str "/" ++ str k ++ str "/data", data_node 2 1 None [dbl z 0; dbl z 0]); (str "/" ++ str k ++ str "/data/title", NText (str "Image"))]).
  set (items := one_channel "0" (str "m") ++ img "1"%string 1 ++ img "2"%string 2).
  assert (F : object_fits utf8 Utf8 (session items)) by (unfold items, img; fit).
  exists items, (fun l => l), (@rev pystr). split; [exact F|]. split; [intros l; apply Permutation_refl|]. split; [intros l; apply Permutation_sym, Permutation_rev|].
  intros depth Hd.
  pose proof (C80_gwy_read (map lower_char) (fun l => l) utf8 Utf8 true depth _ [] F Hd) as R. rewrite app_nil_r in R. rewrite R.
  pose proof (C80_gwy_read (map lower_char) (@rev pystr) utf8 Utf8 true depth _ [] F Hd) as R'. rewrite app_nil_r in R'. rewrite R'. clear R R'.
  assert (E : shown_gwy (gwy_surface (map lower_char) (fun l => l) true (object_value (session items))) =
     Ok ([[bit_of 7000000 0; bit_of 500000 0]], bit_of 250000 0, bit_of 1000000 0, [(str "Image", [[bit_of 2 0; bit_of 2 0]])])) by (vm_compute; reflexivity).
  assert (E' : shown_gwy (gwy_surface (map lower_char) (@rev pystr) true (object_value (session items))) =
     Ok ([[bit_of 7000000 0; bit_of 500000 0]], bit_of 250000 0, bit_of 1000000 0, [(str "Image", [[bit_of 1 0; bit_of 1 0]])])) by (vm_compute; reflexivity).
  destruct (gwy_surface (map lower_char) (fun l => l) true (object_value (session items))) as [[s l]|] eqn:G; [|discriminate].
  destruct (gwy_surface (map lower_char) (@rev pystr) true (object_value (session items))) as [[s' l']|] eqn:G'; [|discriminate].
  exists s, l, l'. split; [reflexivity|]. split.
  - destruct (C81_gwy_layers_any_order_partial (map lower_char) (fun l => l) (@rev pystr) _ s s' l l' (fun l => Permutation_refl l) (fun l => Permutation_sym (Permutation_rev l)) G G') as [-> _]. reflexivity.
  - intros P. cbn [shown_gwy rmap] in E, E'. apply ok_inj, pair_equal_spec in E as [_ E]. apply ok_inj, pair_equal_spec in E' as [_ E'].
    apply (Permutation_map (fun '(t, m) => (t, map (map bits_of_b64) m))) in P. rewrite E, E' in P.
    apply Permutation_length_1_inv in P. vm_compute in P. discriminate.
Qed.
(** a text of 4096 bytes: the null that ends it is left, and taken for the next component *)
Theorem C80_gwy_long_text_refuted : exists s : pystr, Forall (fun c => 32 <= c < 127) s /\ length s = 4096%nat /\ forall depth,
  is_ok (gwy_container Utf8 depth {| contents := gwy_file utf8 (session [(str "t", NText s)]); pos := 4 |}) = false.
Proof.
  exists (repeat 120 4096). split; [apply Forall_forall; intros c H; apply repeat_spec in H; lia|]. split; [apply repeat_length|]. intros [|d]; [reflexivity|].
  assert (H : forall c, is_ok (rbind (gwy_string Utf8 {| contents := gwy_file utf8 (session [(str "t", NText (repeat 120 4096))]); pos := 4 |}) (fun '(name, h1) =>
    rbind (gwy_count h1) (fun '(size, h2) => gwy_components c Utf8 (S (length (contents h2))) (Z.of_nat (pos h2) + size) [] h2))) = false) by (intros c; vm_compute; reflexivity).
  specialize (H (gwy_container Utf8 d)). cbn [gwy_container].
  destruct (gwy_string _ _) as [[name h1]|]; [|reflexivity]. cbn [rbind] in *. destruct (gwy_count h1) as [[size h2]|]; [|reflexivity]. cbn [rbind] in *.
  destruct (gwy_components _ _ _ _ _ _); [discriminate|reflexivity].
Qed.
