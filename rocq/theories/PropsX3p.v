(** C82, C83: X3P files. *)
From Coq Require Import String Ascii ZArith Lia Bool.
From Coq Require Import List.
From Flocq Require Import IEEE754.BinarySingleNaN IEEE754.Binary IEEE754.Bits.
From Verif Require Import Base ModelBytes ModelUnits ModelSur ModelFormats ModelReaders ModelGwy ModelZip SpecReaders SpecZip ProofBytes PropsMagic PropsLayout ProofReaders ProofZip ProofFlat PropsGwySurface.
Import ListNotations.
Local Open Scope list_scope.
Local Open Scope Z_scope.

(** a whole file as a table *)
Lemma table_of {A} (g : bytes -> A) size ny nx (b : bytes) m : (0 < size)%nat ->
  (rbind (rmap (map g) (frombuffer size b)) (reshape_z ny nx) = Ok m <->
   0 <= nx /\ 0 <= ny /\ length b = (size * (Z.to_nat ny * Z.to_nat nx))%nat /\
   table_is m (Z.to_nat ny) (Z.to_nat nx) (fun i j x => x = g (slice (size * (i * Z.to_nat nx + j)) size b))).
Proof.
  intros Hs.
  assert (D : forall n, length b = (size * n)%nat -> frombuffer size b = Ok (items size b 0 n)).
  { intros n L. unfold frombuffer. rewrite L, (Nat.mul_comm size n), Nat.mod_mul, Nat.eqb_refl, Nat.div_mul by lia. f_equal.
    rewrite <- (chunks_items size b 0 n) by lia. f_equal. unfold slice. cbn [skipn]. rewrite firstn_all2; [reflexivity|lia]. }
  assert (G : forall ny' nx', length b = (size * (ny' * nx'))%nat -> exists m', reshape ny' nx' (map g (items size b 0 (ny' * nx'))) = Ok m' /\
     table_is m' ny' nx' (fun i j x => x = g (slice (size * (i * nx' + j)) size b))).
  { intros ny' nx' L. rewrite (reshape_ok (g [])) by (rewrite map_length, items_length; reflexivity). eexists. split; [reflexivity|].
    apply grid_is. intros i j Hi Hj. assert (K : (i * nx' + j < ny' * nx')%nat) by nia.
    rewrite (map_nth g (items size b 0 (ny' * nx')) []). rewrite items_nth by exact K. do 2 f_equal. lia. }
  split.
  - intros H. apply rbind_ok in H as (l & H1 & H2). unfold reshape_z in H2. destruct ((ny <? 0) || (nx <? 0)) eqn:E; [discriminate|].
    apply orb_false_iff in E as [E1 E2]. apply Z.ltb_ge in E1, E2. apply rmap_ok in H1 as (l0 & F & ->).
    assert (L0 : length b = (size * length l0)%nat).
    { unfold frombuffer in F. destruct (Nat.eqb_spec (length b mod size) 0) as [M|M]; [|discriminate]. apply ok_inj in F. subst l0. rewrite chunks_length.
      pose proof (Nat.div_mod (length b) size ltac:(lia)). lia. }
    assert (L1 : length l0 = (Z.to_nat ny * Z.to_nat nx)%nat) by (unfold reshape in H2; rewrite map_length in H2; destruct (Nat.eqb_spec (length l0) (Z.to_nat ny * Z.to_nat nx)); [assumption|discriminate]).
    rewrite L1 in L0. split; [lia|]. split; [lia|]. split; [exact L0|]. rewrite (D _ L0) in F. apply ok_inj in F. subst l0.
    destruct (G _ _ L0) as (m' & R & T). rewrite R in H2. apply ok_inj in H2. subst m'. exact T.
  - intros (Hx & Hy & L & T). rewrite (D _ L). cbn [rmap rbind]. unfold reshape_z.
    replace ((ny <? 0) || (nx <? 0)) with false by (symmetry; apply orb_false_iff; split; apply Z.ltb_ge; lia).
    destruct (G _ _ L) as (m' & R & T'). rewrite R. f_equal. apply (table_unique _ _ _ _ _ T' T). intros i j x y -> ->. reflexivity.
Qed.
Lemma table_ext {A} (m : list (list A)) ny nx (P Q : nat -> nat -> A -> Prop) : (forall i j x, (i < ny)%nat -> (j < nx)%nat -> P i j x <-> Q i j x) -> table_is m ny nx P <-> table_is m ny nx Q.
Proof.
  intros H. unfold table_is. split; intros [L T]; (split; [exact L|]); intros i Hi; destruct (T i Hi) as (r & R1 & R2 & R3); exists r; (split; [exact R1|]); (split; [exact R2|]);
    intros j Hj; destruct (R3 j Hj) as (x & X1 & X2); exists x; (split; [exact X1|]); apply (H i j x Hi Hj), X2.
Qed.
(** one case of the data types *)
Lemma heights_case (t : string) (g : bytes -> f64) size ny nx (b : bytes) m : (0 < size)%nat -> x3p_size t = size ->
  (forall p, (size * p + size <= length b)%nat -> g (slice (size * p) size b) = x3p_value t b p) ->
  (rbind (rmap (map g) (frombuffer size b)) (reshape_z ny nx) = Ok m <->
   0 <= nx /\ 0 <= ny /\ length b = (x3p_size t * (Z.to_nat ny * Z.to_nat nx))%nat /\
   table_is m (Z.to_nat ny) (Z.to_nat nx) (fun i j x => x = x3p_value t b (i * Z.to_nat nx + j))).
Proof.
  intros Hs E Hg. rewrite (table_of g size ny nx b m Hs), E. split; intros (Hx & Hy & L & T); (split; [exact Hx|]); (split; [exact Hy|]); (split; [exact L|]); revert T;
    apply table_ext; intros i j x Hi Hj; (rewrite Hg; [reflexivity|]); rewrite L; assert (i * Z.to_nat nx + j + 1 <= Z.to_nat ny * Z.to_nat nx)%nat by nia; nia.
Qed.
Lemma heights_iff py (t : string) ny nx (b : bytes) m : In t ["I"; "L"; "F"; "D"]%string ->
  (rbind (x3p_heights py (str t) b) (reshape_z ny nx) = Ok m <->
   0 <= nx /\ 0 <= ny /\ length b = (x3p_size t * (Z.to_nat ny * Z.to_nat nx))%nat /\ (t = "I"%string -> numpy2 py = false) /\
   table_is m (Z.to_nat ny) (Z.to_nat nx) (fun i j x => x = x3p_value t b (i * Z.to_nat nx + j))).
Proof.
  assert (U : forall n p, (n * p + n <= length b)%nat -> unle (slice (n * p) n b) = uint n b (n * p)) by (intros n p L; apply unle_slice, L).
  intros [<-|[<-|[<-|[<-|[]]]]].
  - change (x3p_heights py (str "I") b) with (rbind (frombuffer 2 b) (fun l => if numpy2 py then Err OverflowError else Ok (map (fun c => wrap32 (item_u c * 10 ^ 6)) l))).
    pose proof (heights_case "I" (fun c => wrap32 (item_u c * 10 ^ 6)) 2 ny nx b m ltac:(lia) eq_refl) as H.
    assert (G : forall p, (2 * p + 2 <= length b)%nat -> wrap32 (item_u (slice (2 * p) 2 b) * 10 ^ 6) = x3p_value "I" b p) by (intros p L; unfold wrap32, item_u; rewrite U by exact L; reflexivity).
    specialize (H G). destruct (numpy2 py).
    + split.
      * intros F. apply rbind_ok in F as (l & F & _). apply rbind_ok in F as (l' & _ & F). discriminate.
      * intros (_ & _ & _ & F & _). discriminate (F eq_refl).
    + replace (rbind (frombuffer 2 b) (fun l => Ok (map (fun c => wrap32 (item_u c * 10 ^ 6)) l))) with (rmap (map (fun c => wrap32 (item_u c * 10 ^ 6))) (frombuffer 2 b))
        by (destruct (frombuffer 2 b); reflexivity). rewrite H. tauto.
  - rewrite (heights_case "L" (fun c => wrap32 (item_u c * 10 ^ 6)) 4 ny nx b m ltac:(lia) eq_refl); [intuition discriminate|].
    intros p L. unfold wrap32, item_u. rewrite U by exact L. reflexivity.
  - rewrite (heights_case "F" (fun c => f64_of_f32 (fmul32 (item_f32 c) (f32_of_f64 (pow10 6)))) 4 ny nx b m ltac:(lia) eq_refl); [intuition discriminate|].
    intros p L. unfold item_f32. rewrite U by exact L. reflexivity.
  - rewrite (heights_case "D" (fun c => fmul (b64_of_bits (unle c)) (pow10 6)) 8 ny nx b m ltac:(lia) eq_refl); [intuition discriminate|].
    intros p L. rewrite U by exact L. reflexivity.
Qed.

(** the metadata *)
Lemma gget_map (d : list (pystr * pystr)) k : gget (map (fun '(k, v) => (k, MText v)) d) k = option_map MText (gget d k).
Proof. induction d as [|[n v] d IH]; [reflexivity|]. cbn. destruct (zs_eqb k n); [reflexivity|exact IH]. Qed.
Lemma dated_iff py k d d' : (forall x, gget d (str k) <> Some (MDate x)) -> dated py k d = Ok d' ->
  (forall n, n <> str k -> gget d' n = gget d n) /\
  (gget d (str k) = None -> gget d' (str k) = None) /\ (forall s, gget d (str k) = Some (MText s) -> exists t, to_date py s = Ok t /\ gget d' (str k) = Some (MDate t)).
Proof.
  intros Nd H. unfold dated in H. destruct (gget d (str k)) as [[s|x]|] eqn:E; [|discriminate|].
  - apply rmap_ok in H as (t & H & ->). split; [intros n Hn|split; [discriminate|]].
    + rewrite gget_gput. destruct (zs_eqb n (str k)) eqn:Z; [apply zs_eqb_eq in Z; contradiction|reflexivity].
    + intros s' Es. assert (s' = s) by congruence. subst s'. exists t. split; [exact H|]. rewrite gget_gput, zs_eqb_refl. reflexivity.
  - apply ok_inj in H. subst d'. split; [reflexivity|]. split; [auto|]. intros s F. congruence.
Qed.
Lemma dated_ok py k d : (forall x, gget d (str k) <> Some (MDate x)) -> (forall s, gget d (str k) = Some (MText s) -> exists t, to_date py s = Ok t) -> exists d', dated py k d = Ok d'.
Proof.
  intros Nd H. unfold dated. destruct (gget d (str k)) as [[s|x]|] eqn:E; [|exfalso; exact (Nd x eq_refl)|eauto]. destruct (H s eq_refl) as (t & Ht). rewrite Ht. eexists. reflexivity.
Qed.
Lemma gget_in {A} (d : list (pystr * A)) k v : NoDup (map fst d) -> (In (k, v) d <-> gget d k = Some v).
Proof.
  induction d as [|[n x] d IH]; cbn [map fst gget In]; intros H; [split; [intros []|discriminate]|]. inversion H as [|? ? H1 H2]; subst. destruct (zs_eqb k n) eqn:E.
  - apply zs_eqb_eq in E. subst n. split; [intros [F|F]; [congruence|exfalso; apply H1; apply in_map_iff; exists (k, v); auto]|intros F; left; congruence].
  - rewrite <- (IH H2). split; [intros [F|F]; [injection F as -> ->; rewrite zs_eqb_refl in E; discriminate|exact F]|auto].
Qed.
Lemma dated_keys py k d d' : dated py k d = Ok d' -> NoDup (map fst d) -> NoDup (map fst d').
Proof.
  unfold dated. destruct (gget d (str k)) as [[s|x]|]; intros H N; [|discriminate|apply ok_inj in H; subst; exact N]. apply rmap_ok in H as (t & _ & ->). apply gput_keys, N.
Qed.
Lemma metadata_iff py r2 :
  ((exists m, x3p_metadata py (Some r2) = Ok m) <-> forall k s, In k ["Date"; "CalibrationDate"]%string -> last_text r2 (str k) s -> exists d, to_date py s = Ok d) /\
  forall m, x3p_metadata py (Some r2) = Ok m -> metadata_of py r2 m.
Proof.
  cbn [x3p_metadata]. set (d0 := map (fun '(k, v) => (k, MText v)) (flat_dict r2 [])).
  assert (D0 : forall k v, gget d0 k = Some v <-> exists s, v = MText s /\ last_text r2 k s).
  { intros k v. unfold d0. rewrite gget_map. split.
    - destruct (gget (flat_dict r2 []) k) as [s|] eqn:E; [|discriminate]. intros H. injection H as <-. exists s. split; [reflexivity|]. apply flat_get, E.
    - intros (s & -> & H). apply flat_get in H. rewrite H. reflexivity. }
  assert (N0 : forall k x, gget d0 k <> Some (MDate x)) by (intros k x F; apply D0 in F as (s & F & _); discriminate).
  assert (Ne : str "CalibrationDate" <> str "Date") by discriminate.
  split; [split|].
  - intros (m & H). apply rbind_ok in H as (d1 & H1 & H2). pose proof (dated_iff py "Date" d0 d1 (N0 _) H1) as (A1 & A2 & A3).
    assert (N1 : forall x, gget d1 (str "CalibrationDate") <> Some (MDate x)) by (intros x; rewrite (A1 _ Ne); apply N0).
    pose proof (dated_iff py "CalibrationDate" d1 m N1 H2) as (B1 & B2 & B3). intros k s Hk L.
    assert (G : gget d0 (str k) = Some (MText s)) by (apply D0; eauto). destruct Hk as [<-|[<-|[]]].
    + destruct (A3 s G) as (t & T & _). eauto.
    + rewrite <- (A1 _ Ne) in G. destruct (B3 s G) as (t & T & _). eauto.
  - intros H. destruct (dated_ok py "Date" d0 (N0 _)) as (d1 & H1).
    { intros s G. apply D0 in G as (s' & E & L). injection E as <-. apply (H "Date"%string s); [left; reflexivity|exact L]. }
    pose proof (dated_iff py "Date" d0 d1 (N0 _) H1) as (A1 & A2 & A3).
    destruct (dated_ok py "CalibrationDate" d1) as (m & H2).
    { intros x. rewrite (A1 _ Ne). apply N0. }
    { intros s G. rewrite (A1 _ Ne) in G. apply D0 in G as (s' & E & L). injection E as <-. apply (H "CalibrationDate"%string s); [right; left; reflexivity|exact L]. }
    exists m. rewrite H1. exact H2.
  - intros m H. apply rbind_ok in H as (d1 & H1 & H2). pose proof (dated_iff py "Date" d0 d1 (N0 _) H1) as (A1 & A2 & A3).
    assert (N1 : forall x, gget d1 (str "CalibrationDate") <> Some (MDate x)) by (intros x; rewrite (A1 _ Ne); apply N0).
    pose proof (dated_iff py "CalibrationDate" d1 m N1 H2) as (B1 & B2 & B3).
    assert (K0 : NoDup (map fst d0)).
    { unfold d0. rewrite map_map. replace (map (fun x => fst (let '(k, v) := x in (k, MText v))) (flat_dict r2 [])) with (map fst (flat_dict r2 [])); [apply flat_dict_keys|]. apply map_ext. intros [k v]. reflexivity. }
    pose proof (dated_keys _ _ _ _ H2 (dated_keys _ _ _ _ H1 K0)) as Km. split; [exact Km|]. split.
    + intros k K1 K2 v. rewrite (gget_in m k v Km), (B1 _ K2), (A1 _ K1). apply D0.
    + assert (F : forall k, gget d0 k = None \/ exists s, gget d0 k = Some (MText s)).
      { intros k. destruct (gget d0 k) as [[s|x]|] eqn:E; [eauto|exfalso; exact (N0 _ _ E)|auto]. }
      assert (C : forall k, In k [str "Date"; str "CalibrationDate"] -> (gget d0 k = None -> gget m k = None) /\ (forall s, gget d0 k = Some (MText s) -> exists t, to_date py s = Ok t /\ gget m k = Some (MDate t))).
      { intros k [<-|[<-|[]]].
        - rewrite (B1 (str "Date") (not_eq_sym Ne)). auto.
        - rewrite <- (A1 _ Ne). auto. }
      intros k Hk v. rewrite (gget_in m k v Km). destruct (C k Hk) as [C1 C2]. split.
      * intros E. destruct (F k) as [N|(s & G)]; [rewrite (C1 N) in E; discriminate|]. destruct (C2 s G) as (t & T & E'). exists s, t. split; [congruence|]. split; [|exact T].
        apply D0 in G as (s' & Es & L). injection Es as <-. exact L.
      * intros (s & d & -> & L & T). assert (G : gget d0 k = Some (MText s)) by (apply D0; eauto). destruct (C2 s G) as (t & T' & E'). congruence.
Qed.

Lemma existsb_types d : existsb (zs_eqb d) (map str ["I"; "L"; "F"; "D"]%string) = true <-> exists t, d = str t /\ In t ["I"; "L"; "F"; "D"]%string.
Proof.
  rewrite existsb_exists. split.
  - intros (x & H & E). apply zs_eqb_eq in E. subst x. apply in_map_iff in H as (t & <- & H). eauto.
  - intros (t & -> & H). exists (str t). split; [apply in_map, H|apply zs_eqb_refl].
Qed.
Lemma find_text {A} e t path (f : pystr -> res A) x : rbind (rbind (the (efind e t)) (fun c => text_at c path)) (given f) = Ok x <->
  exists c s, first_at e t c /\ says c path s /\ f s = Ok x.
Proof.
  split.
  - intros H. apply rbind_ok in H as (o & H1 & H2). apply rbind_ok in H1 as (c & H1 & H3). apply the_iff, find_iff in H1. exists c.
    destruct o as [s|]; [|discriminate]. exists s. split; [exact H1|]. split; [apply text_iff, H3|exact H2].
  - intros (c & s & H1 & H2 & H3). apply find_iff in H1. rewrite H1. cbn [the rbind]. apply text_iff in H2. rewrite H2. exact H3.
Qed.
Lemma x3p_iff py en b s m : read_x3p py en b = Ok (s, m) <->
  exists a root h points, x3p_content py en b a root /\ x3p_says py root h /\ holds a (x_link h) points /\
    rbind (x3p_heights py (str (x_type h)) points) (reshape_z (x_ny h) (x_nx h)) = Ok (rdata s) /\
    rstep_x s = fmul (x_dx h) (pow10 6) /\ rstep_y s = fmul (x_dy h) (pow10 6) /\ x3p_metadata py (efind root ["Record2"%string]) = Ok m.
Proof.
  unfold read_x3p. split.
  - intros H. apply rbind_ok in H as (a & Ha & H). destruct (has a "main.xml") eqn:E1; [|discriminate]. destruct (has a "md5checksum.hex") eqn:E2; [|discriminate]. cbn [negb] in H.
    apply rbind_ok in H as (hex & H1 & H). apply rbind_ok in H1 as (hexfile & H1 & H1'). apply rbind_ok in H as (sum & H2 & H). apply rbind_ok in H as (xml & H3 & H).
    destruct (zs_eqb (md5_of py xml) sum) eqn:E3; [|discriminate]. cbn [negb] in H. apply zs_eqb_eq in E3. rewrite md5_whole in E3. subst sum.
    apply rbind_ok in H as (root & H4 & H). destruct (efind root ["Record1"%string]) as [r1|] eqn:E4; [|discriminate]. destruct (efind root ["Record3"%string]) as [r3|] eqn:E5; [|discriminate].
    apply rbind_ok in H as (ft & H5 & H). destruct ft as [ft|]; [|discriminate]. destruct (zs_eqb ft (str "SUR")) eqn:E6; [|discriminate]. cbn [negb] in H. apply zs_eqb_eq in E6. subst ft.
    apply rbind_ok in H as (axes & H6 & H). apply rbind_ok in H as (dt & H7 & H). apply rbind_ok in H7 as (cz & H7 & H7'). apply rbind_ok in H as (dtype & H8 & H).
    destruct dt as [d|]; [|discriminate]. destruct (existsb (zs_eqb d) (map str ["I"; "L"; "F"; "D"]%string)) eqn:E7; [|discriminate]. apply ok_inj in H8. subst dtype.
    apply existsb_types in E7 as (t & -> & Ht).
    apply rbind_ok in H as (sx & H9 & H). apply find_text in H9 as (cx & tx & X1 & X2 & X3). apply rbind_ok in H as (sy & H10 & H). apply find_text in H10 as (cy & ty & Y1 & Y2 & Y3).
    apply rbind_ok in H as (dims & H11 & H). apply rbind_ok in H as (nx & H12 & H). apply given_iff in H12 as (snx & N1 & N2).
    apply rbind_ok in H as (ny & H13 & H). apply given_iff in H13 as (sny & N3 & N4). apply rbind_ok in H as (nz & H14 & H). apply given_iff in H14 as (snz & N5 & N6).
    destruct (Z.eqb_spec nz 1) as [->|]; [|discriminate]. cbn [negb] in H. apply rbind_ok in H as (link & H15 & H). destruct link as [path|]; [|discriminate].
    apply rbind_ok in H as (points & H16 & H). apply rbind_ok in H as (hs & H17 & H). apply rbind_ok in H as (data & H18 & H). apply rmap_ok in H as (m' & H19 & H).
    apply pair_equal_spec in H as [-> <-].
    exists a, root, {| x_type := t; x_dx := sx; x_dy := sy; x_nx := nx; x_ny := ny; x_link := path |}, points. cbn [x_type x_dx x_dy x_nx x_ny x_link rdata rstep_x rstep_y].
    split; [|split; [|split; [apply member_iff, H16|split; [rewrite H17; exact H18|auto]]]].
    + split; [exact Ha|]. exists hexfile, hex, xml. split; [apply member_iff, H1|]. split; [exact H1'|]. split; [apply member_iff, H3|]. split; [apply first_word_iff, H2|exact H4].
    + apply the_iff, find_iff in H6, H7, H11. apply find_iff in E4, E5. apply text_iff in H5, H7', H15.
      exists r1, r3, axes, cx, cy, cz, dims, tx, ty, snx, sny, snz. repeat (split; [assumption|]). assumption.
  - intros (a & root & h & points & (Ha & hexfile & hex & xml & C1 & C2 & C3 & C4 & C5) & S & Hp & Hh & Sx & Sy & Hm).
    destruct S as (r1 & r3 & axes & cx & cy & cz & dims & tx & ty & snx & sny & snz & S1 & S2 & S3 & S4 & S5 & S6 & S7 & S8 & S9 & S10 & S11 & S12 & S13 & S14 & S15 & S16 & S17 & S18 & S19 & S20 & S21).
    rewrite Ha. cbn [rbind]. rewrite (proj2 (has_iff a "main.xml") (ex_intro _ _ C3)), (proj2 (has_iff a "md5checksum.hex") (ex_intro _ _ C1)). cbn [negb].
    apply member_iff in C1, C3, Hp. rewrite C1. cbn [rbind]. rewrite C2. cbn [rbind]. apply first_word_iff in C4. rewrite C4. cbn [rbind]. rewrite C3. cbn [rbind]. rewrite md5_whole, zs_eqb_refl. cbn [negb].
    rewrite C5. cbn [rbind]. apply find_iff in S1, S2. rewrite S1, S2. apply text_iff in S3. rewrite S3. cbn [rbind]. rewrite zs_eqb_refl. cbn [negb].
    apply find_iff in S4. rewrite S4. cbn [the rbind]. apply find_iff in S7. rewrite S7. cbn [the rbind]. apply text_iff in S8. rewrite S8. cbn [rbind].
    rewrite (proj2 (existsb_types _) (ex_intro _ _ (conj eq_refl S9))). cbn [rbind].
    rewrite (proj2 (find_text axes ["CX"%string] ["Increment"%string] (to_float py) (x_dx h)) (ex_intro _ _ (ex_intro _ _ (conj S5 (conj S10 S11))))). cbn [rbind].
    rewrite (proj2 (find_text axes ["CY"%string] ["Increment"%string] (to_float py) (x_dy h)) (ex_intro _ _ (ex_intro _ _ (conj S6 (conj S12 S13))))). cbn [rbind].
    apply find_iff in S14. rewrite S14. cbn [the rbind].
    rewrite (proj2 (given_iff dims ["SizeX"%string] (to_int py) (x_nx h)) (ex_intro _ _ (conj S15 S16))). cbn [rbind].
    rewrite (proj2 (given_iff dims ["SizeY"%string] (to_int py) (x_ny h)) (ex_intro _ _ (conj S17 S18))). cbn [rbind].
    rewrite (proj2 (given_iff dims ["SizeZ"%string] (to_int py) 1) (ex_intro _ _ (conj S19 S20))). cbn [rbind]. rewrite Z.eqb_refl. cbn [negb].
    apply text_iff in S21. rewrite S21. cbn [rbind]. rewrite Hp. cbn [rbind]. apply rbind_ok in Hh as (hs & G1 & G2). rewrite G1. cbn [rbind]. rewrite G2. cbn [rbind]. rewrite Hm. cbn [rmap].
    destruct s as [d x y]. cbn in Sx, Sy |- *. rewrite Sx, Sy. reflexivity.
Qed.
(** C82: which files are read, and what the surface is then *)
Theorem C82_x3p : forall py en (b : bytes) (s : raw), (exists m, read_x3p py en b = Ok (s, m)) <-> x3p_surface py en b s.
Proof.
  intros py en b s. unfold x3p_surface. split.
  - intros (m & H). apply x3p_iff in H as (a & root & h & points & H1 & H2 & H3 & H4 & H5 & H6 & H7). exists a, root, h, points.
    split; [exact H1|]. split; [exact H2|]. split; [exact H3|]. split.
    { intros r2 k t F Hk L. apply find_iff in F. rewrite F in H7. exact (proj1 (proj1 (metadata_iff py r2)) (ex_intro _ m H7) k t Hk L). }
    destruct H2 as (r1 & r3 & axes & cx & cy & cz & dims & tx & ty & snx & sny & snz & S1 & S2 & S3 & S4 & S5 & S6 & S7 & S8 & S9 & _).
    apply (heights_iff py _ _ _ _ _ S9) in H4 as (G1 & G2 & G3 & G4 & G5). auto 10.
  - intros (a & root & h & points & H1 & H2 & H3 & D & G1 & G2 & G3 & G4 & G5 & H5 & H6).
    assert (M : exists m, x3p_metadata py (efind root ["Record2"%string]) = Ok m).
    { destruct (efind root ["Record2"%string]) as [r2|] eqn:E; [|exists []; reflexivity]. apply (metadata_iff py r2). intros k t Hk L. apply find_iff in E. exact (D r2 k t E Hk L). }
    destruct M as (m & M). exists m. apply x3p_iff. exists a, root, h, points. split; [exact H1|]. split; [exact H2|]. split; [exact H3|]. split; [|auto].
    destruct H2 as (r1 & r3 & axes & cx & cy & cz & dims & tx & ty & snx & sny & snz & S1 & S2 & S3 & S4 & S5 & S6 & S7 & S8 & S9 & _).
    apply (heights_iff py _ _ _ _ _ S9). auto 10.
Qed.
(** C83: what is in the metadata *)
Theorem C83_x3p_metadata : forall py en (b : bytes) (s : raw) m, read_x3p py en b = Ok (s, m) ->
  exists a root, x3p_content py en b a root /\
    ((exists r2, first_at root ["Record2"%string] r2 /\ metadata_of py r2 m) \/ ((forall r2, ~ first_at root ["Record2"%string] r2) /\ m = [])).
Proof.
  intros py en b s m H. apply x3p_iff in H as (a & root & h & points & H1 & _ & _ & _ & _ & _ & H7). exists a, root. split; [exact H1|].
  destruct (efind root ["Record2"%string]) as [r2|] eqn:E.
  - left. exists r2. split; [apply find_iff, E|]. exact (proj2 (metadata_iff py r2) m H7).
  - right. split; [|cbn in H7; apply ok_inj in H7; congruence]. intros r2 F. apply find_iff in F. congruence.
Qed.
(** C83: a file whose main.xml does not have the stored checksum is refused *)
Theorem C83_x3p_checksum : forall py en (b : bytes) a hexfile hex xml w, unzip py b = Ok a -> holds a (str "md5checksum.hex") hexfile -> decode en hexfile = Ok hex ->
  holds a (str "main.xml") xml -> begins_with_word hex w -> w <> md5 py xml -> read_x3p py en b = Err CorruptedFileError.
Proof.
  intros py en b a hexfile hex xml w Ha H1 H2 H3 H4 N. unfold read_x3p. rewrite Ha. cbn [rbind].
  rewrite (proj2 (has_iff a "main.xml") (ex_intro _ _ H3)), (proj2 (has_iff a "md5checksum.hex") (ex_intro _ _ H1)). cbn [negb].
  apply member_iff in H1, H3. rewrite H1. cbn [rbind]. rewrite H2. cbn [rbind]. apply first_word_iff in H4. rewrite H4. cbn [rbind]. rewrite H3. cbn [rbind]. rewrite md5_whole.
  destruct (zs_eqb (md5 py xml) w) eqn:E; [apply zs_eqb_eq in E; congruence|reflexivity].
Qed.
