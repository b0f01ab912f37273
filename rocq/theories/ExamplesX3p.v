(** X3P heights in real numbers, concrete files, and what does not hold of the reader. *)
From Coq Require Import String Ascii ZArith Lia Bool Reals Lra.
From Coq Require Import List.
From Flocq Require Import IEEE754.BinarySingleNaN IEEE754.Binary IEEE754.Bits Core.
From Verif Require Import Base ModelBytes ModelUnits ModelSur ModelFormats ModelReaders ModelGwy ModelZip SpecReaders SpecZip ProofBytes PropsMagic PropsLayout ProofReaders ProofZip ProofFlat PropsX3p
  ProofFloat PropsSdf PropsAl3d ProofApx ExamplesGwy.
Import ListNotations.
Local Open Scope list_scope.
Local Open Scope R_scope.

Lemma one : (1 + e53) ^ 1 - 1 <= bpow radix2 (-51).
Proof.
  change (-51)%Z with (2 + -53)%Z. rewrite bpow_plus, <- e53_bpow. change (bpow radix2 2) with 4. pose proof PropsVkValue.e53_small as [H1 H2]. simpl. lra.
Qed.
Lemma times_million x : ordinary x -> close (fmul x million) (val x * 1000000).
Proof.
  intros [F S]. change million with (pow10 6). destruct pow6_ok as [E6 F6]. assert (Sx : sized_r 900 900 (R64 x)) by (destruct S as [S|S]; [left; exact S|right; exact S]).
  pose proof (apx_exact _ F6) as A6. rewrite E6 in A6.
  assert (S6 : sized_r 0 20 1000000) by (apply (int_sized 1000000 20); [lia|vm_compute; discriminate]).
  pose proof (apx_mult 0 0 1 _ _ _ _ _ _ _ _ (apx_exact x F) A6 Sx S6 eq_refl ltac:(lia) ltac:(lia) ltac:(lia) ltac:(lia)) as A.
  split; [exact (proj1 A)|exact (apx_err 1 _ _ _ A one)].
Qed.
(** C82: heights stored as floating-point numbers in metres are the heights in micrometres, doubles up to a relative error of 2^-51 and
    singles up to 2^-24; the steps likewise *)
Theorem C82_x3p_micrometres : forall py en (b : bytes) (s : raw) m, read_x3p py en b = Ok (s, m) ->
  exists a root h points, x3p_content py en b a root /\ x3p_says py root h /\ holds a (x_link h) points /\
    (ordinary (x_dx h) -> close (rstep_x s) (val (x_dx h) * 1000000)) /\ (ordinary (x_dy h) -> close (rstep_y s) (val (x_dy h) * 1000000)) /\
    (x_type h = "D"%string -> table_is (rdata s) (Z.to_nat (x_ny h)) (Z.to_nat (x_nx h)) (fun i j x =>
       let v := f64_at points (8 * (i * Z.to_nat (x_nx h) + j)) in ordinary v -> close x (val v * 1000000))) /\
    (x_type h = "F"%string -> table_is (rdata s) (Z.to_nat (x_ny h)) (Z.to_nat (x_nx h)) (fun i j x =>
       let v := f32_at points (4 * (i * Z.to_nat (x_nx h) + j)) in
       Binary.is_finite 24 128 v = true -> Rabs (val32 v) <= bpow radix2 100 ->
       Binary.is_finite 53 1024 x = true /\ Rabs (val x - val32 v * 1000000) <= bpow radix2 (-24) * Rabs (val32 v * 1000000) + bpow radix2 (-150))).
Proof.
  intros py en b s m H. assert (X : x3p_surface py en b s) by (apply C82_x3p; eauto). destruct X as (a & root & h & points & H1 & H2 & H3 & _ & _ & _ & _ & _ & T & Sx & Sy).
  exists a, root, h, points. split; [exact H1|]. split; [exact H2|]. split; [exact H3|]. split; [rewrite Sx; apply times_million|]. split; [rewrite Sy; apply times_million|]. split; intros E; rewrite E in T.
  - revert T. generalize (Z.to_nat (x_ny h)) (Z.to_nat (x_nx h)). intros ny nx [L T]. split; [exact L|]. intros i Hi. destruct (T i Hi) as (r & R1 & R2 & R3). exists r. split; [exact R1|]. split; [exact R2|].
    intros j Hj. destruct (R3 j Hj) as (x & X1 & ->). eexists. split; [exact X1|]. intros v O. apply times_million, O.
  - revert T. generalize (Z.to_nat (x_ny h)) (Z.to_nat (x_nx h)). intros ny nx [L T]. split; [exact L|]. intros i Hi. destruct (T i Hi) as (r & R1 & R2 & R3). exists r. split; [exact R1|]. split; [exact R2|].
    intros j Hj. destruct (R3 j Hj) as (x & X1 & ->). eexists. split; [exact X1|]. cbv zeta. set (v := f32_at points (4 * (i * nx + j))). intros F B.
    change (x3p_value "F" points (i * nx + j)) with (f64_of_f32 (fmul32 v (f32_of_f64 (pow10 6)))). destruct m_ok as [M1 M2].
    assert (Q : Rabs (R32 v * R32 (f32_of_f64 (pow10 6))) <= bpow radix2 120).
    { rewrite M1, Rabs_mult, (Rabs_pos_eq 1000000) by lra. replace (bpow radix2 120) with (bpow radix2 100 * bpow radix2 20) by (rewrite <- bpow_plus; reflexivity).
      apply Rmult_le_compat; [apply Rabs_pos|lra|exact B|]. change (bpow radix2 20) with 1048576. lra. }
    destruct (b32_mult_ok v _ F M2 Q) as [P1 P2]. destruct (f64_of_f32_ok _ P2) as [P3 P4]. split; [exact P4|]. change (val (f64_of_f32 (fmul32 v (f32_of_f64 (pow10 6))))) with (R64 (f64_of_f32 (fmul32 v (f32_of_f64 (pow10 6))))).
    rewrite P3, P1, M1. change (val32 v) with (R32 v). apply rnd32_err.
Qed.

(** C83, refuted: the heights are not protected by a checksum - any other bytes of the same number are accepted in their place, whatever
    main.xml says of them *)
Theorem C83_x3p_points_refuted : forall py en (b b' : bytes) (s : raw) m a root h points points',
  read_x3p py en b = Ok (s, m) -> x3p_content py en b a root -> x3p_says py root h -> holds a (x_link h) points -> x_link h <> str "main.xml" -> x_link h <> str "md5checksum.hex" ->
  length points' = length points ->
  unzip py b' = Ok (map (fun '(n, c) => if list_eq_dec Z.eq_dec n (x_link h) then (n, points') else (n, c)) a) ->
  exists s', read_x3p py en b' = Ok (s', m) /\ rstep_x s' = rstep_x s /\ rstep_y s' = rstep_y s.
Proof.
  intros py en b b' s m a root h points points' R C S Hp N1 N2 L U. apply x3p_iff in R as (a0 & root0 & h0 & points0 & C0 & S0 & Hp0 & G & Sx & Sy & M).
  assert (Ea : a0 = a) by (destruct C as [C _], C0 as [C0 _]; congruence). subst a0.
  assert (Er : root0 = root).
  { destruct C as (_ & hf & hx & xml & A1 & A2 & A3 & A4 & A5). destruct C0 as (_ & hf0 & hx0 & xml0 & B1 & B2 & B3 & B4 & B5).
    pose proof (holds_unique _ _ _ _ A3 B3). congruence. }
  subst root0.
  assert (Eh : h0 = h).
  { destruct S as (r1 & r3 & axes & cx & cy & cz & dims & tx & ty & snx & sny & snz & S1 & S2 & S3 & S4 & S5 & S6 & S7 & S8 & S9 & S10 & S11 & S12 & S13 & S14 & S15 & S16 & S17 & S18 & S19 & S20 & S21).
    destruct S0 as (r1' & r3' & axes' & cx' & cy' & cz' & dims' & tx' & ty' & snx' & sny' & snz' & T1 & T2 & T3 & T4 & T5 & T6 & T7 & T8 & T9 & T10 & T11 & T12 & T13 & T14 & T15 & T16 & T17 & T18 & T19 & T20 & T21).
    pose proof (first_unique _ _ _ _ S1 T1). subst r1'. pose proof (first_unique _ _ _ _ S2 T2). subst r3'. pose proof (first_unique _ _ _ _ S4 T4). subst axes'.
    pose proof (first_unique _ _ _ _ S5 T5). subst cx'. pose proof (first_unique _ _ _ _ S6 T6). subst cy'. pose proof (first_unique _ _ _ _ S7 T7). subst cz'. pose proof (first_unique _ _ _ _ S14 T14). subst dims'.
    assert (SU : forall e p x y, says e p x -> says e p y -> x = y) by (intros e p x y (c & c1 & c2) (d & d1 & d2); pose proof (first_unique _ _ _ _ c1 d1); congruence).
    pose proof (SU _ _ _ _ S8 T8) as Et. pose proof (SU _ _ _ _ S10 T10). pose proof (SU _ _ _ _ S12 T12). pose proof (SU _ _ _ _ S15 T15). pose proof (SU _ _ _ _ S17 T17). pose proof (SU _ _ _ _ S21 T21).
    destruct h as [t0 dx0 dy0 nx0 ny0 l0]. destruct h0 as [t1 dx1 dy1 nx1 ny1 l1]. cbn in *. subst.
    assert (t1 = t0).
    { clear - Et S9 T9. cbn in S9, T9. repeat (destruct S9 as [<-|S9]; [repeat (destruct T9 as [<-|T9]; [first [reflexivity|discriminate]|]); destruct T9|]). destruct S9. }
    f_equal; congruence. }
  subst h0. pose proof (holds_unique _ _ _ _ Hp Hp0). subst points0.
  assert (Hold : forall n c, n <> x_link h -> holds a n c -> holds (map (fun '(n, c) => if list_eq_dec Z.eq_dec n (x_link h) then (n, points') else (n, c)) a) n c).
  { intros n c Hn (be & af & -> & Ha). rewrite map_app. cbn [map]. destruct (list_eq_dec Z.eq_dec n (x_link h)); [contradiction|].
    eexists _, _. split; [reflexivity|]. rewrite map_map. intros F. apply Ha. apply in_map_iff in F as ([n' c'] & F & I'). apply in_map_iff. exists (n', c'). split; [|exact I'].
    destruct (list_eq_dec Z.eq_dec n' (x_link h)); exact F. }
  assert (Hnew : holds (map (fun '(n, c) => if list_eq_dec Z.eq_dec n (x_link h) then (n, points') else (n, c)) a) (x_link h) points').
  { destruct Hp as (be & af & -> & Ha). rewrite map_app. cbn [map]. destruct (list_eq_dec Z.eq_dec (x_link h) (x_link h)); [|contradiction].
    eexists _, _. split; [reflexivity|]. rewrite map_map. intros F. apply Ha. apply in_map_iff in F as ([n' c'] & F & I'). apply in_map_iff. exists (n', c'). split; [|exact I'].
    destruct (list_eq_dec Z.eq_dec n' (x_link h)); exact F. }
  pose proof S as (r1 & r3 & axes & cx & cy & cz & dims & tx & ty & snx & sny & snz & S1 & S2 & S3 & S4 & S5 & S6 & S7 & S8 & S9 & _).
  apply (heights_iff py _ _ _ _ _ S9) in G as (G1 & G2 & G3 & G4 & _).
  assert (D : exists data, rbind (x3p_heights py (str (x_type h)) points') (reshape_z (x_ny h) (x_nx h)) = Ok data).
  { exists (grid (Z.to_nat (x_ny h)) (Z.to_nat (x_nx h)) (fun i j => x3p_value (x_type h) points' (i * Z.to_nat (x_nx h) + j))). apply (heights_iff py _ _ _ _ _ S9).
    split; [exact G1|]. split; [exact G2|]. split; [rewrite L; exact G3|]. split; [exact G4|]. apply grid_is. reflexivity. }
  destruct D as (data & D). exists {| rdata := data; rstep_x := rstep_x s; rstep_y := rstep_y s |}. split; [|auto]. apply x3p_iff. eexists _, root, h, points'.
  split; [|split; [exact S|split; [exact Hnew|auto]]].
  destruct C as (_ & hf & hx & xml & A1 & A2 & A3 & A4 & A5). split; [exact U|]. exists hf, hx, xml. split; [apply Hold; auto|]. split; [exact A2|]. split; [apply Hold; auto|]. auto.
Qed.

(** ** Files *)
Local Open Scope Z_scope.
Definition leaf (t s : string) : elem := Elem (str t) (Some (str s)) [].
Definition branch (t : string) (kids : list elem) : elem := Elem (str t) (Some [10; 32]) kids.
Definition axis (name type inc : string) : elem := branch name [leaf "AxisType" "I"; leaf "DataType" type; leaf "Increment" inc; leaf "Offset" "0"].
Definition x3p_root (type zinc nx ny : string) : elem :=
  branch "p:ISO5436_2" [
    branch "Record1" [leaf "Revision" "ISO5436 - 2000"; leaf "FeatureType" "SUR"; branch "Axes" [axis "CX" "D" "2E-6"; axis "CY" "D" "3E-6"; axis "CZ" type zinc]];
    branch "Record2" [leaf "Date" " 2024-01-01 "; branch "Instrument" [leaf "Manufacturer" "A"; leaf "Model" "B C"]];
    branch "Record3" [branch "MatrixDimension" [leaf "SizeX" nx; leaf "SizeY" ny; leaf "SizeZ" "1"];
                      branch "DataLink" [leaf "PointDataLink" "bindata/data.bin"; leaf "MD5ChecksumPointData" "0123"]]].
(** libraries that know this archive and this document *)
Definition toy (a : archive) (root : elem) : python := {|
  unzip := fun _ => Ok a; md5 := fun b => str "900150983cd24fb0"; parse_xml := fun _ => Ok root; parse_xml_text := fun _ => Ok root;
  to_int := fun s => Ok (Z.of_N (int_of s)); to_float := fun s => Ok (if zs_eqb s (str "2E-6") then f64_make 1 (-19) else f64_make 1 (-18)); to_date := fun _ => Ok 20240101;
  to_lower := map lower_char; numpy2 := true |}.
Definition x3p_archive (points : bytes) : archive :=
  [(str "main.xml", str "<old>"); (str "md5checksum.hex", str "900150983cd24fb0 *main.xml"); (str "bindata/data.bin", points); (str "main.xml", str "<xml>")].
Definition shown_x3p (r : res (raw * metadata)) := rmap (fun '(s, m) => (map (map bits_of_b64) (rdata s), bits_of_b64 (rstep_x s), bits_of_b64 (rstep_y s), m)) r.
Definition doubles : bytes := le 8 (bits_of_b64 (f64_make 1 (-20))) ++ le 8 (bits_of_b64 (f64_make 3 0)).
Example x3p_example :
  shown_x3p (read_x3p (toy (x3p_archive doubles) (x3p_root "D" "" "2" "1")) Utf8 []) =
  Ok ([[bits_of_b64 (f64_make 15625 (-14)); bits_of_b64 (f64_make 3000000 0)]], bits_of_b64 (f64_make 15625 (-13)), bits_of_b64 (f64_make 15625 (-12)),
      [(str "Date", MDate 20240101); (str "InstrumentManufacturer", MText (str "A")); (str "InstrumentModel", MText (str "B C"))]).
Proof. vm_compute. reflexivity. Qed.
(** the hypotheses of the theorems are met by it *)
Example x3p_meets : exists s, x3p_surface (toy (x3p_archive doubles) (x3p_root "D" "" "2" "1")) Utf8 [] s.
Proof.
  destruct (read_x3p (toy (x3p_archive doubles) (x3p_root "D" "" "2" "1")) Utf8 []) as [[s m]|] eqn:E.
  - exists s. apply C82_x3p. eauto.
  - exfalso. pose proof x3p_example as X. rewrite E in X. discriminate.
Qed.
(** C82, refuted: 5000 steps of 10^-9 m are 5 micrometres; read as heights in metres and multiplied in 32-bit arithmetic they become 705032704 *)
Theorem C82_x3p_integer_refuted : forall py en (b : bytes) a dx dy d, x3p_content py en b a (x3p_root "L" "1E-9" "1" "1") ->
  to_float py (str "2E-6") = Ok dx -> to_float py (str "3E-6") = Ok dy -> to_int py (str "1") = Ok 1 -> to_date py (str "2024-01-01") = Ok d ->
  holds a (str "bindata/data.bin") (le 4 5000) ->
  exists s m x, read_x3p py en b = Ok (s, m) /\ rdata s = [[x]] /\ val x = 705032704%R /\ val x <> (5000 * / 10 ^ 9 * 1000000)%R.
Proof.
  intros py en b a dx dy d C Fx Fy Fi Fd Hp. set (root := x3p_root "L" "1E-9" "1" "1") in *.
  assert (E : exists m, read_x3p py en b = Ok ({| rdata := [[f64_of_Z 705032704]]; rstep_x := fmul dx (pow10 6); rstep_y := fmul dy (pow10 6) |}, m)).
  { apply C82_x3p. exists a, root, {| x_type := "L"; x_dx := dx; x_dy := dy; x_nx := 1; x_ny := 1; x_link := str "bindata/data.bin" |}, (le 4 5000).
    split; [exact C|]. cbn [x_type x_dx x_dy x_nx x_ny x_link].
    assert (FA : forall e p c, efind e p = Some c -> first_at e p c) by (intros; apply find_iff; assumption).
    assert (SA : forall e p s, text_at e p = Ok (Some s) -> says e p s) by (intros; apply text_iff; assumption).
    split; [|split; [exact Hp|]].
    - unfold x3p_says. cbn [x_type x_dx x_dy x_nx x_ny x_link].
      eexists _, _, _, _, _, _, _, (str "2E-6"), (str "3E-6"), (str "1"), (str "1"), (str "1").
      split; [apply FA; reflexivity|]. split; [apply FA; reflexivity|]. split; [apply SA; reflexivity|]. split; [apply FA; reflexivity|]. split; [apply FA; reflexivity|]. split; [apply FA; reflexivity|].
      split; [apply FA; reflexivity|]. split; [apply SA; reflexivity|]. split; [right; left; reflexivity|]. split; [apply SA; reflexivity|]. split; [exact Fx|]. split; [apply SA; reflexivity|]. split; [exact Fy|].
      split; [apply FA; reflexivity|]. split; [apply SA; reflexivity|]. split; [exact Fi|]. split; [apply SA; reflexivity|]. split; [exact Fi|]. split; [apply SA; reflexivity|]. split; [exact Fi|]. apply SA; reflexivity.
    - split.
      + intros r2 k s F Hk Hl. apply find_iff in F. cbn in F. apply PropsGwySurface.Some_inj in F. subst r2. apply flat_get in Hl. destruct Hk as [<-|[<-|[]]]; vm_compute in Hl; [|discriminate].
        injection Hl as <-. eauto.
      + split; [lia|]. split; [lia|]. split; [reflexivity|]. split; [discriminate|]. split; [|split; reflexivity].
        split; [reflexivity|]. intros i Hi. exists [f64_of_Z 705032704]. assert (i = 0%nat) by (cbn in Hi; lia). subst i. split; [reflexivity|]. split; [reflexivity|].
        intros j Hj. exists (f64_of_Z 705032704). assert (j = 0%nat) by (cbn in Hj; lia). subst j. split; reflexivity. }
  destruct E as (m & E). eexists _, m, (f64_of_Z 705032704). split; [exact E|]. split; [reflexivity|].
  destruct (f64_of_Z_ok 705032704) as [Z1 _]; [vm_compute; discriminate|]. change (val (f64_of_Z 705032704)) with (R64 (f64_of_Z 705032704)). rewrite Z1. split; [reflexivity|]. lra.
Qed.
(** C82, refuted: with NumPy 2 files of 16-bit integers are not read at all *)
Theorem C82_x3p_short_refuted : forall py en (b : bytes) a root h, numpy2 py = true -> x3p_content py en b a root -> x3p_says py root h -> x_type h = "I"%string ->
  is_ok (read_x3p py en b) = false.
Proof.
  intros py en b a root h N C S E. destruct (read_x3p py en b) as [[s m]|] eqn:R; [exfalso|reflexivity].
  apply x3p_iff in R as (a0 & root0 & h0 & points0 & C0 & S0 & _ & G & _).
  assert (Er : root0 = root).
  { destruct C as (U & hf & hx & xml & A1 & A2 & A3 & A4 & A5). destruct C0 as (U0 & hf0 & hx0 & xml0 & B1 & B2 & B3 & B4 & B5).
    assert (a0 = a) by congruence. subst a0. pose proof (holds_unique _ _ _ _ A3 B3). congruence. }
  subst root0.
  assert (Et : x_type h0 = "I"%string).
  { destruct S as (r1 & r3 & axes & cx & cy & cz & dims & tx & ty & snx & sny & snz & S1 & S2 & S3 & S4 & S5 & S6 & S7 & S8 & S9 & _).
    destruct S0 as (r1' & r3' & axes' & cx' & cy' & cz' & dims' & tx' & ty' & snx' & sny' & snz' & T1 & T2 & T3 & T4 & T5 & T6 & T7 & T8 & T9 & _).
    pose proof (first_unique _ _ _ _ S1 T1). subst r1'. pose proof (first_unique _ _ _ _ S4 T4). subst axes'. pose proof (first_unique _ _ _ _ S7 T7). subst cz'.
    destruct S8 as (c & c1 & c2). destruct T8 as (d & d1 & d2). pose proof (first_unique _ _ _ _ c1 d1). subst d. rewrite E in c2. rewrite c2 in d2. injection d2 as d2.
    clear - d2 T9. cbn in T9. repeat (destruct T9 as [T9|T9]; [rewrite <- T9 in *; first [reflexivity|discriminate]|]). destruct T9. }
  rewrite Et in G. unfold x3p_heights in G. change (zs_eqb (str "I") (str "I")) with true in G. cbn iota in G. rewrite N in G. destruct (frombuffer 2 points0); discriminate.
Qed.
Example x3p_integer_meets : is_ok (read_x3p (toy (x3p_archive (le 4 5000)) (x3p_root "L" "1E-9" "1" "1")) Utf8 []) = true /\
  is_ok (read_x3p (toy (x3p_archive (le 2 5000)) (x3p_root "I" "1E-9" "1" "1")) Utf8 []) = false.
Proof. vm_compute. auto. Qed.
