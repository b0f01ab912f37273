(** C56, C57: FITS and xyz files. *)
From Coq Require Import String ZArith Bool Reals Lia Lra Arith Permutation.
From Coq Require Import List.
From Flocq Require Import IEEE754.BinarySingleNaN IEEE754.Binary IEEE754.Bits.
From Verif Require Import Base RList ModelBytes ModelUnits ModelSur ModelFormats ModelFits ProofBytes.
Import ListNotations.
Local Open Scope list_scope.

Lemma skipn_skipn {A} (x y : nat) (l : list A) : skipn x (skipn y l) = skipn (y + x) l.
Proof. revert l. induction y as [|y IH]; intros l; [reflexivity|]. destruct l as [|a l]; [rewrite !skipn_nil; reflexivity|]. apply IH. Qed.
(** *** C56: reading the header *)
Section Header.
Variable float_of : pystr -> res f64.
Variable en : encoding.
(** Specification: the k-th block of 2880 bytes of the file and what the parser makes of it *)
Definition block (file : bytes) (k : nat) : bytes := firstn 2880 (skipn (2880 * k) file).
Definition outcome (file : bytes) (k : nat) : res (header * bool) := rbind (decode en (block file k)) (parse_header_block float_of).
(** this block is the last one the loop looks at: it raises or contains the END card *)
Definition stops (r : res (header * bool)) : bool := match r with Ok (_, ended) => ended | Err _ => true end.

Lemma fread_rest n h b h' : fread n h = (b, h') -> contents h' = contents h /\ b = firstn n (skipn (pos h) (contents h)) /\ skipn (pos h') (contents h) = skipn n (skipn (pos h) (contents h)).
Proof.
  unfold fread. intros H. injection H as <- <-. cbn [contents pos]. split; [reflexivity|]. split; [reflexivity|].
  rewrite firstn_length, skipn_length, skipn_skipn. destruct (Nat.le_gt_cases n (length (contents h) - pos h)) as [M|M].
  - rewrite Nat.min_l by exact M. reflexivity.
  - rewrite !skipn_all2 by lia. reflexivity.
Qed.
Lemma fread_pos n h b h' : fread n h = (b, h') -> contents h' = contents h /\ pos h' = (pos h + Nat.min n (length (contents h) - pos h))%nat.
Proof. unfold fread. intros H. injection H as <- <-. cbn [contents pos]. rewrite firstn_length, skipn_length. auto. Qed.
Lemma header_step_spec d h file k : skipn (pos h) (contents h) = skipn (2880 * k) file ->
  exists h', header_step float_of en d h = (rmap (fun '(p, ended) => (hupdate d p, ended)) (outcome file k), h') /\
    contents h' = contents h /\ skipn (pos h') (contents h') = skipn (2880 * S k) file.
Proof.
  intros H. unfold header_step. destruct (fread BLOCKSIZE h) as [b h'] eqn:E. apply fread_rest in E. destruct E as (E1 & E2 & E3).
  exists h'. rewrite H in E2. split.
  - assert (Eb : block file k = b) by (rewrite E2; reflexivity). unfold outcome. rewrite Eb. clear. destruct (decode en b) as [s|e]; cbn [rbind rmap]; reflexivity.
  - split; [exact E1|]. rewrite E1, E3, H. rewrite skipn_skipn. replace (2880 * S k)%nat with (2880 * k + BLOCKSIZE)%nat; [reflexivity|]. change BLOCKSIZE with 2880%nat. lia.
Qed.
Lemma header_run n : forall d h file k, skipn (pos h) (contents h) = skipn (2880 * k) file ->
  (forall i, (k <= i < k + n)%nat -> stops (outcome file i) = false) -> forall m, (m <= n)%nat -> read_header float_of m en d h = None.
Proof.
  induction n as [|n IH]; intros d h file k H Hs m Hm.
  - replace m with 0%nat by lia. reflexivity.
  - destruct m as [|m]; [reflexivity|]. cbn [read_header]. destruct (header_step_spec d h file k H) as (h' & -> & Ec & Er).
    pose proof (Hs k ltac:(lia)) as Hk. destruct (outcome file k) as [[p ended]|e]; [|discriminate]. cbn [stops] in Hk. subst ended. cbn [rmap].
    apply (IH _ _ file (S k)); [exact Er|intros i Hi; apply Hs; lia|lia].
Qed.
Lemma header_stop n : forall d h file k, skipn (pos h) (contents h) = skipn (2880 * k) file ->
  stops (outcome file (k + n)) = true -> read_header float_of (S n) en d h <> None.
Proof.
  induction n as [|n IH]; intros d h file k H Hs.
  - cbn [read_header]. destruct (header_step_spec d h file k H) as (h' & -> & Ec & Er). rewrite Nat.add_0_r in Hs.
    destruct (outcome file k) as [[p ended]|e]; [|discriminate]. cbn [stops] in Hs. subst ended. discriminate.
  - cbn [read_header]. destruct (header_step_spec d h file k H) as (h' & -> & Ec & Er).
    destruct (outcome file k) as [[p [|]]|e]; [discriminate| |discriminate]. cbn [rmap].
    apply (IH _ _ file (S k)); [exact Er|]. rewrite <- Hs. f_equal. f_equal. lia.
Qed.
Definition start (file : bytes) : fh := {| contents := file; pos := 0 |}.
(** read_header comes back exactly when some block of the file raises or holds the END card, and then after at most that many
    iterations. *)
Theorem C56_returns_iff (file : bytes) :
  (exists fuel, read_header float_of fuel en [] (start file) <> None) <-> exists k, stops (outcome file k) = true.
Proof.
  split.
  - intros (fuel & H). destruct (existsb (fun k => stops (outcome file k)) (seq 0 fuel)) eqn:E.
    + apply existsb_exists in E. destruct E as (k & _ & E). exists k. exact E.
    + exfalso. apply H. apply (header_run fuel [] (start file) file 0); [reflexivity| |lia]. intros i Hi.
      destruct (stops (outcome file i)) eqn:Es; [|reflexivity]. assert (existsb (fun k => stops (outcome file k)) (seq 0 fuel) = true); [|congruence].
      apply existsb_exists. exists i. split; [apply in_seq; lia|exact Es].
  - intros (k & H). exists (S k). apply (header_stop k [] (start file) file 0); [reflexivity|exact H].
Qed.
Lemma cards_nil : cards [] = repeat [] 36.
Proof. reflexivity. Qed.
Lemma outcome_past (file : bytes) (k : nat) : (length file <= 2880 * k)%nat -> outcome file k = Ok ([], false).
Proof. intros H. unfold outcome, block. rewrite skipn_all2 by exact H. cbn [firstn]. destruct en; reflexivity. Qed.
(** The refutation: a file all of whose blocks are well formed but that has no END card is read for ever. *)
Theorem C56_never_returns_refuted (file : bytes) :
  (forall k, (2880 * k < length file)%nat -> exists d, outcome file k = Ok (d, false)) -> forall fuel, read_header float_of fuel en [] (start file) = None.
Proof.
  intros H fuel. apply (header_run fuel [] (start file) file 0); [reflexivity| |lia]. intros i _.
  destruct (Nat.le_gt_cases (length file) (2880 * i)) as [L|L]; [rewrite outcome_past by exact L; reflexivity|]. destruct (H i L) as (d & ->). reflexivity.
Qed.

(** *** The loop over the extensions always ends, within as many iterations as the file has bytes. *)
Lemma hdu_step_pos ls h ls' h' : hdu_step float_of en ls h = Ok (ls', h') ->
  contents h' = contents h /\ (pos h <= pos h')%nat /\ ((pos h < length (contents h))%nat -> (pos h < pos h')%nat).
Proof.
  unfold hdu_step. destruct (fread BLOCKSIZE h) as [b h1] eqn:E.
  assert (A : contents h1 = contents h /\ (pos h <= pos h1)%nat /\ ((pos h < length (contents h))%nat -> (pos h < pos h1)%nat)).
  { apply fread_pos in E. destruct E as [E0 ->]. split; [exact E0|]. change BLOCKSIZE with 2880%nat. lia. }
  destruct A as (A1 & A2 & A3). destruct (startsb (str "XTENSION") b); [|intros H; injection H as <- <-; auto].
  unfold read_extension. destruct (decode en b) as [s|e]; [|discriminate]. cbn [rbind].
  destruct (parse_header_block float_of s) as [[d ended]|e]; [|discriminate]. cbn [rbind].
  destruct (hget (str "NAXIS") d) as [v|]; [|discriminate]. destruct (negb (hval_eqb v (HInt 2))); [discriminate|].
  destruct (hint_of d (str "NAXIS1")) as [n1|]; [|discriminate]. cbn [rbind]. destruct (hint_of d (str "NAXIS2")) as [n2|]; [|discriminate]. cbn [rbind].
  destruct (hint_of d (str "BITPIX")) as [bp|]; [|discriminate]. cbn [rbind]. destruct (bitpix_size bp) as [size|]; [|discriminate].
  destruct ((n1 <? 0) || (n2 <? 0))%Z; [discriminate|]. destruct (fread _ h1) as [b2 h2] eqn:E2.
  assert (B : contents h2 = contents h1 /\ (pos h1 <= pos h2)%nat) by (apply fread_pos in E2; destruct E2 as [E0 ->]; split; [exact E0|lia]).
  destruct (frombuffer size b2) as [items|]; [|discriminate]. cbn [rbind]. destruct (reshape _ _ items) as [data|]; [|discriminate]. cbn [rbind].
  destruct (hget (str "EXTNAME") d) as [name|]; [|discriminate]. intros H. apply (f_equal (fun r => match r with Ok p => snd p | Err _ => h end)) in H. cbn [snd] in H. subst h'.
  unfold fskip. cbn [contents pos]. destruct B as [B1 B2]. rewrite B1. repeat split; [exact A1|lia|lia].
Qed.
Theorem C56_extensions_terminate (ls : layers) (h : fh) : read_hdus float_of (S (length (contents h))) en ls h <> None.
Proof.
  assert (G : forall n ls h, (length (contents h) - pos h < n)%nat -> read_hdus float_of n en ls h <> None).
  { induction n as [|n IH]; intros ls0 h0 L; [lia|]. cbn [read_hdus]. destruct (hdu_step float_of en ls0 h0) as [[ls' h']|e] eqn:E; [|discriminate].
    apply hdu_step_pos in E. destruct E as (E1 & E2 & E3). destruct (Nat.leb_spec (length (contents h')) (pos h')) as [M|M]; [discriminate|].
    apply IH. rewrite E1 in *. lia. }
  apply G. lia.
Qed.

(** *** Extensions are read one after the other *)
Record ext := { x_block : bytes; x_dict : header; x_bitpix : Z; x_size : nat; x_n1 : nat; x_n2 : nat; x_data : bytes; x_name : hval }.
(** Specification of a well-formed extension: one header block with the usual cards, and the data *)
Record ok_ext (x : ext) : Prop := {
  ox_len : length (x_block x) = 2880%nat;
  ox_start : startsb (str "XTENSION") (x_block x) = true;
  ox_head : exists s ended, decode en (x_block x) = Ok s /\ parse_header_block float_of s = Ok (x_dict x, ended);
  ox_naxis : hget (str "NAXIS") (x_dict x) = Some (HInt 2);
  ox_n1 : hget (str "NAXIS1") (x_dict x) = Some (HInt (Z.of_nat (x_n1 x)));
  ox_n2 : hget (str "NAXIS2") (x_dict x) = Some (HInt (Z.of_nat (x_n2 x)));
  ox_bitpix : hget (str "BITPIX") (x_dict x) = Some (HInt (x_bitpix x));
  ox_size : bitpix_size (x_bitpix x) = Some (x_size x);
  ox_name : hget (str "EXTNAME") (x_dict x) = Some (x_name x);
  ox_data : length (x_data x) = (x_n1 x * x_n2 x * x_size x)%nat }.
(** FITS: the data are padded to a multiple of 2880 bytes *)
Definition padding (n : nat) : nat := match Nat.modulo n 2880 with O => 0 | m => 2880 - m end.
Definition ext_bytes (x : ext) : bytes := x_block x ++ x_data x ++ repeat 0%Z (padding (length (x_data x))).
(** the layer that belongs to an extension: its items, row by row, are the data *)
Definition is_layer (x : ext) (l : hdu) : Prop :=
  h_header l = x_dict x /\ h_bitpix l = x_bitpix x /\ length (h_items l) = x_n2 x /\
  (forall r, In r (h_items l) -> length r = x_n1 x /\ forall i, In i r -> length i = x_size x) /\
  concat (concat (h_items l)) = x_data x.

Lemma chunks_spec n : forall k b, length b = (k * n)%nat -> length (chunks k n b) = k /\ concat (chunks k n b) = b /\ forall c, In c (chunks k n b) -> length c = n.
Proof.
  induction k as [|k IH]; intros b L; cbn [chunks].
  - destruct b; [|discriminate]. repeat split; intros c [].
  - destruct (IH (skipn n b)) as (I1 & I2 & I3); [rewrite skipn_length; lia|]. cbn [length concat]. rewrite I1, I2, firstn_skipn. split; [reflexivity|]. split; [reflexivity|].
    intros c [<-|H]; [rewrite firstn_length; lia|apply I3; exact H].
Qed.
Lemma rows_of_spec {A} n : forall k (l : list A), length l = (k * n)%nat -> length (rows_of k n l) = k /\ concat (rows_of k n l) = l /\ forall r, In r (rows_of k n l) -> length r = n.
Proof.
  induction k as [|k IH]; intros l L; cbn [rows_of].
  - destruct l; [|discriminate]. repeat split; intros c [].
  - destruct (IH (skipn n l)) as (I1 & I2 & I3); [rewrite skipn_length; lia|]. cbn [length concat]. rewrite I1, I2, firstn_skipn. split; [reflexivity|]. split; [reflexivity|].
    intros c [<-|H]; [rewrite firstn_length; lia|apply I3; exact H].
Qed.
Lemma bitpix_size_pos b n : bitpix_size b = Some n -> (0 < n)%nat.
Proof. unfold bitpix_size. repeat match goal with |- (if ?c then _ else _) = _ -> _ => destruct c end; intros H; try discriminate; injection H as <-; lia. Qed.
Lemma fread_at (pre b post : bytes) : fread (length b) {| contents := pre ++ b ++ post; pos := length pre |} = (b, {| contents := pre ++ b ++ post; pos := length pre + length b |}).
Proof.
  unfold fread. cbn [contents pos]. rewrite skipn_app, Nat.sub_diag, skipn_all. cbn [skipn app]. rewrite firstn_app, Nat.sub_diag, firstn_all. cbn [firstn]. rewrite app_nil_r. reflexivity.
Qed.
Lemma hdu_step_ext (x : ext) (ls : layers) (pre post : bytes) : ok_ext x ->
  exists l, is_layer x l /\
    hdu_step float_of en ls {| contents := pre ++ x_block x ++ x_data x ++ post; pos := length pre |} =
    Ok (lset (x_name x) l ls, {| contents := pre ++ x_block x ++ x_data x ++ post; pos := length pre + 2880 + length (x_data x) + (2880 - Nat.modulo (length (x_data x)) 2880) |}).
Proof.
  intros [L1 S1 (s & ended & D1 & P1) A0 A1 A2 A3 A4 A5 L2]. unfold hdu_step.
  replace BLOCKSIZE with (length (x_block x)) by exact L1. rewrite fread_at. rewrite S1. unfold read_extension. rewrite D1. cbn [rbind]. rewrite P1. cbn [rbind].
  rewrite A0. change (hval_eqb (HInt 2) (HInt 2)) with true. cbn [negb]. unfold hint_of. rewrite A1, A2, A3. cbn [rbind]. rewrite A4.
  destruct (Z.ltb_spec (Z.of_nat (x_n1 x)) 0) as [X|_]; [lia|]. destruct (Z.ltb_spec (Z.of_nat (x_n2 x)) 0) as [X|_]; [lia|]. cbn [orb]. rewrite !Nat2Z.id.
  rewrite <- L2. rewrite (app_assoc pre (x_block x) (x_data x ++ post)). rewrite <- app_length. rewrite fread_at.
  pose proof (bitpix_size_pos _ _ A4) as Hp.
  destruct (chunks_spec (x_size x) (x_n1 x * x_n2 x) (x_data x) L2) as (C1 & C2 & C3).
  assert (Ef : frombuffer (x_size x) (x_data x) = Ok (chunks (x_n1 x * x_n2 x) (x_size x) (x_data x))).
  { unfold frombuffer. rewrite L2, Nat.mod_mul by lia. cbn [Nat.eqb]. rewrite Nat.div_mul by lia. reflexivity. }
  rewrite Ef. cbn [rbind]. unfold reshape. rewrite C1, (Nat.mul_comm (x_n2 x) (x_n1 x)), Nat.eqb_refl. cbn [rbind]. rewrite A5.
  set (it := rows_of (x_n2 x) (x_n1 x) (chunks (x_n1 x * x_n2 x) (x_size x) (x_data x))).
  destruct (rows_of_spec (x_n1 x) (x_n2 x) (chunks (x_n1 x * x_n2 x) (x_size x) (x_data x))) as (R1 & R2 & R3); [rewrite C1; lia|]. fold it in R1, R2, R3.
  exists {| h_header := x_dict x; h_bitpix := x_bitpix x; h_items := it |}. split.
  - unfold is_layer. cbn [h_header h_bitpix h_items]. split; [reflexivity|]. split; [reflexivity|]. split; [exact R1|]. split.
    + intros r Hr. split; [apply R3; exact Hr|]. intros i Hi. apply C3. rewrite <- R2. apply in_concat. exists r. auto.
    + rewrite R2. exact C2.
  - unfold fskip. cbn [contents pos]. f_equal. f_equal. f_equal; try reflexivity. rewrite app_length. unfold BLOCKSIZE. rewrite L1. reflexivity.
Qed.
(** A file of well-formed extensions, none of whose data fill a whole number of blocks: every extension is read, none is skipped, in
    order (a later one of the same name replaces an earlier one). *)
Theorem C56_extensions (pre : bytes) (xs : list ext) : Forall ok_ext xs -> (forall x, In x xs -> Nat.modulo (length (x_data x)) 2880 <> 0%nat) ->
  exists fuel lst, read_hdus float_of fuel en [] {| contents := pre ++ concat (map ext_bytes xs); pos := length pre |} =
     Some (Ok (fold_left (fun ls '(x, l) => lset (x_name x) l ls) (combine xs lst) [])) /\ Forall2 is_layer xs lst.
Proof.
  intros Ho Hm. generalize (@nil (hval * hdu)) as ls0. revert pre Ho Hm. induction xs as [|x xs IH]; intros pre Ho Hm ls0.
  - exists 1%nat, []. split; [|constructor]. cbn [map concat combine fold_left read_hdus]. rewrite app_nil_r. unfold hdu_step, fread. cbn [contents pos].
    rewrite skipn_all. rewrite firstn_nil. cbn [startsb str map list_ascii_of_string length].
    change (startsb (str "XTENSION") []) with false. cbv iota. cbn [contents pos]. rewrite Nat.add_0_r, Nat.leb_refl. reflexivity.
  - inversion Ho as [|? ? Hx Ho']; subst. cbn [map concat]. unfold ext_bytes at 1. rewrite <- !app_assoc.
    destruct (hdu_step_ext x ls0 pre (repeat 0%Z (padding (length (x_data x))) ++ concat (map ext_bytes xs)) Hx) as (l & Hl & E).
    assert (Hp : padding (length (x_data x)) = (2880 - Nat.modulo (length (x_data x)) 2880)%nat).
    { pose proof (Hm x (or_introl eq_refl)) as Hz. unfold padding. destruct (Nat.modulo (length (x_data x)) 2880) eqn:Em; [contradiction|reflexivity]. }
    rewrite <- Hp in E.
    set (pre' := pre ++ x_block x ++ x_data x ++ repeat 0%Z (padding (length (x_data x)))).
    destruct (IH pre' Ho' (fun y Hy => Hm y (or_intror Hy)) (lset (x_name x) l ls0)) as (fuel & lst & Ef & Hf).
    assert (Ec : pre' ++ concat (map ext_bytes xs) = pre ++ x_block x ++ x_data x ++ repeat 0%Z (padding (length (x_data x))) ++ concat (map ext_bytes xs)).
    { unfold pre'. rewrite <- !app_assoc. reflexivity. }
    assert (Ep : length pre' = (length pre + 2880 + length (x_data x) + padding (length (x_data x)))%nat).
    { unfold pre'. rewrite !app_length, repeat_length, (ox_len x Hx). lia. }
    rewrite Ec, Ep in Ef. rewrite <- Ep in E, Ef.
    destruct xs as [|y ys].
    + exists 1%nat, [l]. split; [|constructor; [exact Hl|constructor]]. cbn [read_hdus]. rewrite E. cbn [contents pos]. rewrite <- Ec. cbn [map concat]. rewrite app_nil_r, Nat.leb_refl. reflexivity.
    + exists (S fuel), (l :: lst). split; [|constructor; assumption]. cbn [read_hdus]. rewrite E. cbn [contents pos].
      destruct (Nat.leb_spec (length (pre ++ x_block x ++ x_data x ++ repeat 0%Z (padding (length (x_data x))) ++ concat (map ext_bytes (y :: ys)))) (length pre')) as [M|M].
      * exfalso. rewrite <- Ec, app_length in M. cbn [map concat] in M. rewrite app_length in M. unfold ext_bytes at 1 in M. rewrite app_length in M.
        inversion Ho' as [|? ? Hy _]; subst. rewrite (ox_len y Hy) in M. lia.
      * exact Ef.
Qed.
(** When the data of an extension do fill a whole number of blocks, the header block of whatever follows is skipped: the next block
    that is looked at is the one after it. *)
Theorem C56_skips_refuted (x y : ext) (ls : layers) (pre post : bytes) : ok_ext x -> ok_ext y -> Nat.modulo (length (x_data x)) 2880 = 0%nat ->
  exists l, hdu_step float_of en ls {| contents := pre ++ ext_bytes x ++ ext_bytes y ++ post; pos := length pre |} =
    Ok (lset (x_name x) l ls, {| contents := pre ++ ext_bytes x ++ ext_bytes y ++ post; pos := length (pre ++ ext_bytes x ++ x_block y) |}).
Proof.
  intros Hx Hy Hm. destruct (hdu_step_ext x ls pre (ext_bytes y ++ post) Hx) as (l & _ & E). exists l.
  assert (Ex : ext_bytes x = x_block x ++ x_data x). { unfold ext_bytes, padding. rewrite Hm. cbn [repeat]. rewrite app_nil_r. reflexivity. }
  rewrite Ex. rewrite <- !app_assoc. rewrite E. rewrite Hm. f_equal. f_equal. f_equal. rewrite !app_length, (ox_len x Hx), (ox_len y Hy). lia.
Qed.
End Header.

(** *** Concrete files *)
Definition no_float : pystr -> res f64 := fun _ => Err ValueError.
Definition card (k v : string) : pystr := ljust 80 (ljust 8 (str k) ++ str "= " ++ str v).
Definition head (l : list pystr) : bytes := ljust 2880 (concat l ++ ljust 80 (str "END")).
Definition primary : bytes := head [card "SIMPLE" "T / standard"; card "UNITX" "'um'"].
Definition image (name n1 n2 : string) : bytes := head [card "XTENSION" "'IMAGE'"; card "BITPIX" "8"; card "NAXIS" "2"; card "NAXIS1" n1; card "NAXIS2" n2; card "EXTNAME" name].
Definition shape_of {A} (r : option (res (list (list A)))) : option (res (list nat)) := option_map (rmap (map (@length A))) r.
Definition dict_of (n1 n2 : Z) (name : pystr) : header :=
  [(str "XTENSION", HStr (str "IMAGE")); (str "BITPIX", HInt 8); (str "NAXIS", HInt 2); (str "NAXIS1", HInt n1); (str "NAXIS2", HInt n2); (str "EXTNAME", HStr name)].
Theorem C56_example_extension :
  ok_ext no_float Utf8 {| x_block := image "'HEIGHTS'" "3" "2"; x_dict := dict_of 3 2 (str "HEIGHTS"); x_bitpix := 8; x_size := 1; x_n1 := 3; x_n2 := 2; x_data := [1; 2; 3; 4; 5; 6]%Z; x_name := HStr (str "HEIGHTS") |}.
Proof. constructor; cbn [x_block x_dict x_bitpix x_size x_n1 x_n2 x_data x_name].
  3: { exists (image "'HEIGHTS'" "3" "2"), true. split; vm_compute; reflexivity. }
  all: vm_compute; reflexivity.
Qed.
Theorem C56_example :
  shape_of (read_fits no_float 10 Utf8 (primary ++ image "'HEIGHTS'" "3" "2" ++ ljust 2880 [1; 2; 3; 4; 5; 6]%Z)) = Some (Ok [3; 3]%nat).
Proof. vm_compute. reflexivity. Qed.
(** an image of 2880 bytes in front of the heights: the heights are not found *)
Theorem C56_lost_heights_refuted :
  shape_of (read_fits no_float 10 Utf8 (primary ++ image "'PHOTO'" "1440" "2" ++ repeat 7%Z 2880 ++ image "'HEIGHTS'" "3" "2" ++ ljust 2880 [1; 2; 3; 4; 5; 6]%Z)) = Some (Err file_format_error).
Proof. vm_compute. reflexivity. Qed.
(** a header cut off before END *)
Theorem C56_cut_header_refuted : forall fuel, read_fits no_float fuel Utf8 (card "SIMPLE" "T") = None.
Proof.
  intros fuel. unfold read_fits. change (negb (zs_eqb (firstn 6 (card "SIMPLE" "T")) (str "SIMPLE"))) with false. cbv iota.
  assert (E : read_header no_float fuel Utf8 [] {| contents := card "SIMPLE" "T"; pos := 0 |} = None).
  { apply (C56_never_returns_refuted no_float Utf8). intros k Hk. assert (k = 0)%nat by (change (length (card "SIMPLE" "T")) with 80%nat in Hk; lia). subst k.
    exists [(str "SIMPLE", HStr (str "T"))]. vm_compute. reflexivity. }
  rewrite E. reflexivity.
Qed.
