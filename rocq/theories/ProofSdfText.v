(** Lemmas about the ASCII SDF reader. *)
From Coq Require Import String Ascii ZArith Bool Lia.
From Coq Require Import List.
From Verif Require Import Base ModelBytes ModelUnits ModelSur ModelFormats ModelGwy ModelSdfText ProofBytes ProofFlat PropsTmd PropsSdf PropsAl3d.
Import ListNotations.
Local Open Scope Z_scope.

(** *** Blanks *)
Definition blank (s : pystr) : Prop := Forall (fun c => c = 32 \/ c = 9) s.
Definition white (s : pystr) : Prop := Forall (fun c => c = 32 \/ 9 <= c <= 13) s.
Lemma white_space c : c = 32 \/ 9 <= c <= 13 -> is_space c = true /\ c_space c = true.
Proof.
  intros H. unfold is_space, c_space. destruct (Z.eqb_spec c 32); [auto|]. destruct (Z.leb_spec 9 c), (Z.leb_spec c 13); cbn; auto; lia.
Qed.
Lemma c_space_space c : c_space c = true -> is_space c = true.
Proof. unfold is_space, c_space. intros ->. reflexivity. Qed.
Lemma blank_white s : blank s -> white s.
Proof. apply Forall_impl. intros. lia. Qed.
Lemma lstrip_white w s : white w -> lstrip (w ++ s) = lstrip s.
Proof. induction 1 as [|c w H _ IH]; [reflexivity|]. cbn [app lstrip]. destruct (white_space c H) as [-> _]. exact IH. Qed.
Lemma c_lstrip_white w s : white w -> c_lstrip (w ++ s) = c_lstrip s.
Proof. induction 1 as [|c w H _ IH]; [reflexivity|]. cbn [app c_lstrip]. destruct (white_space c H) as [_ ->]. exact IH. Qed.
Lemma lstrip_head c s : is_space c = false -> lstrip (c :: s) = c :: s.
Proof. intros H. cbn. rewrite H. reflexivity. Qed.
Lemma white_rev s : white s -> white (rev s).
Proof. unfold white. rewrite !Forall_forall. intros H c Hc. apply H. apply in_rev. exact Hc. Qed.
(** a text without blanks at its ends *)
Definition trimmed (s : pystr) : Prop := match s with [] => True | c :: _ => is_space c = false end /\ match rev s with [] => True | c :: _ => is_space c = false end.
Lemma lstrip_trim s : match s with [] => True | c :: _ => is_space c = false end -> lstrip s = s.
Proof. destruct s as [|c s]; [reflexivity|]. apply lstrip_head. Qed.
Lemma strip_white a s b : white a -> white b -> trimmed s -> strip (a ++ s ++ b) = s.
Proof.
  intros Ha Hb [H1 H2]. unfold strip. rewrite lstrip_white by exact Ha. destruct s as [|c s].
  - cbn [app]. replace (lstrip b) with (@nil Z). { reflexivity. } symmetry. rewrite <- (app_nil_r b). rewrite lstrip_white by exact Hb. reflexivity.
  - cbn [app]. rewrite lstrip_head by exact H1. change (c :: s ++ b) with ((c :: s) ++ b). rewrite rev_app_distr, lstrip_white by (apply white_rev; exact Hb).
    rewrite lstrip_trim by exact H2. apply rev_involutive.
Qed.

(** *** Lines *)
Lemma splitlines_line a s : (forall c, In c a -> is_linebreak c = false) -> splitlines_aux (a ++ 10 :: s) = a :: splitlines_aux s.
Proof.
  intros H. induction a as [|c a IH]; cbn [app]; [cbn; reflexivity|]. cbn [splitlines_aux]. rewrite (H c) by (left; reflexivity).
  change ((fix splitlines_aux (s0 : pystr) : list pystr := _) ) with splitlines_aux. rewrite IH by (intros; apply H; right; assumption). reflexivity.
Qed.
Lemma splitlines_crlf a s : (forall c, In c a -> is_linebreak c = false) -> splitlines_aux (a ++ 13 :: 10 :: s) = a :: splitlines_aux s.
Proof.
  intros H. induction a as [|c a IH]; cbn [app]; [cbn; reflexivity|]. cbn [splitlines_aux]. rewrite (H c) by (left; reflexivity).
  change ((fix splitlines_aux (s0 : pystr) : list pystr := _) ) with splitlines_aux. rewrite IH by (intros; apply H; right; assumption). reflexivity.
Qed.

(** *** Integers *)
Lemma py_int_dec n : 0 <= n -> py_int (dec n) = Ok n.
Proof.
  intros Hn. destruct (dec_spec n Hn) as (A & B & _). unfold int_parse in A. destruct (negb (zs_eqb (dec n) []) && forallb ModelFormats.is_digit (dec n)) eqn:E; [|discriminate A].
  apply andb_true_iff in E. destruct E as [E1 E2].
  assert (H0 : dec n <> []) by (intros X; rewrite X in E1; cbn in E1; discriminate E1).
  assert (Hs : forall c, In c (dec n) -> is_space c = false).
  { intros c Hc. rewrite Forall_forall in B. specialize (B c Hc). unfold is_space. destruct (Z.eqb_spec c 32); [lia|]. destruct (Z.leb_spec 9 c), (Z.leb_spec c 13), (Z.leb_spec 28 c), (Z.leb_spec c 31); cbn; try reflexivity; lia. }
  assert (Es : strip (dec n) = dec n).
  { rewrite <- (app_nil_r (dec n)) at 1. change (dec n ++ []) with ([] ++ dec n ++ []). apply strip_white; try constructor.
    - destruct (dec n) as [|c r]; [exact Logic.I|]. apply Hs. left. reflexivity.
    - destruct (rev (dec n)) as [|c r] eqn:Er; [exact Logic.I|]. apply Hs. apply in_rev. rewrite Er. left. reflexivity. }
  assert (Ed : py_digits (dec n) = Ok n).
  { unfold py_digits. rewrite split_on_none.
    - cbn [forallb concat]. rewrite E1, E2, app_nil_r. cbn. exact A.
    - intros c Hc. rewrite Forall_forall in B. specialize (B c Hc). lia. }
  unfold py_int. rewrite Es. destruct (dec n) as [|c r] eqn:Ec; [contradiction|].
  assert (Hc : 48 <= c <= 57) by (rewrite Forall_forall in B; apply B; left; reflexivity).
  destruct c as [|p|p]; try exact Ed. do 6 (destruct p as [p|p|]; try exact Ed); exfalso; lia.
Qed.

(** *** Dates *)
Definition pad2 (n : Z) : pystr := [48 + n / 10; 48 + n mod 10].
Definition date_text (d : date) : pystr := pad2 (d_day d) ++ pad2 (d_month d) ++ pad2 (d_year d / 100) ++ pad2 (d_year d mod 100) ++ pad2 (d_hour d) ++ pad2 (d_minute d).
Definition month_days (y m : Z) : Z :=
  match m with 4 | 6 | 9 | 11 => 30 | 2 => if (y mod 400 =? 0) || ((y mod 4 =? 0) && negb (y mod 100 =? 0)) then 29 else 28 | _ => 31 end.
Definition valid_date (d : date) : Prop :=
  1 <= d_year d <= 9999 /\ 1 <= d_month d <= 12 /\ 1 <= d_day d <= month_days (d_year d) (d_month d) /\ 0 <= d_hour d <= 23 /\ 0 <= d_minute d <= 59.
Lemma range_in lo n k : lo <= n < lo + Z.of_nat k -> In n (map (fun i => lo + Z.of_nat i) (seq 0 k)).
Proof. intros H. apply in_map_iff. exists (Z.to_nat (n - lo)). split; [lia|]. apply in_seq. lia. Qed.
Ltac cases_range H := repeat (destruct H as [<-|H]; [eexists; reflexivity|]); destruct H.
Lemma day_first n r : 1 <= n <= 31 -> exists l, re_day (pad2 n ++ r) = (n, r) :: l.
Proof. intros H. assert (Hi := range_in 1 n 31 ltac:(lia)). cbn [seq map] in Hi. cases_range Hi. Qed.
Lemma month_first n r : 1 <= n <= 12 -> exists l, re_month (pad2 n ++ r) = (n, r) :: l.
Proof. intros H. assert (Hi := range_in 1 n 12 ltac:(lia)). cbn [seq map] in Hi. cases_range Hi. Qed.
Lemma hour_first n r : 0 <= n <= 23 -> exists l, re_hour (pad2 n ++ r) = (n, r) :: l.
Proof. intros H. assert (Hi := range_in 0 n 24 ltac:(lia)). cbn [seq map] in Hi. cases_range Hi. Qed.
Lemma minute_first n r : 0 <= n <= 59 -> exists l, re_minute (pad2 n ++ r) = (n, r) :: l.
Proof. intros H. assert (Hi := range_in 0 n 60 ltac:(lia)). cbn [seq map] in Hi. cases_range Hi. Qed.
Lemma two_first n r : 0 <= n <= 99 -> two 48 57 48 57 (pad2 n ++ r) = [(n, r)].
Proof.
  intros H. unfold pad2, two, in_range. cbn [app]. assert (0 <= n / 10 <= 9) by (split; [apply Z.div_pos; lia|apply Z.lt_succ_r, Z.div_lt_upper_bound; lia]).
  assert (0 <= n mod 10 < 10) by (apply Z.mod_pos_bound; lia).
  destruct (Z.leb_spec 48 (48 + n / 10)); [|lia]. destruct (Z.leb_spec (48 + n / 10) 57); [|lia].
  destruct (Z.leb_spec 48 (48 + n mod 10)); [|lia]. destruct (Z.leb_spec (48 + n mod 10) 57); [|lia]. cbn [andb].
  replace ((48 + n / 10 - 48) * 10 + (48 + n mod 10 - 48)) with n; [reflexivity|]. pose proof (Z.div_mod n 10 ltac:(lia)). lia.
Qed.
Lemma year_first y r : 0 <= y <= 9999 -> re_year (pad2 (y / 100) ++ pad2 (y mod 100) ++ r) = [(y, r)].
Proof.
  intros H. assert (0 <= y / 100 <= 99) by (split; [apply Z.div_pos; lia|apply Z.lt_succ_r, Z.div_lt_upper_bound; lia]).
  assert (0 <= y mod 100 < 100) by (apply Z.mod_pos_bound; lia).
  unfold re_year. rewrite two_first by lia. cbn [flat_map]. rewrite two_first by lia. cbn [map app]. replace (y / 100 * 100 + y mod 100) with y; [reflexivity|].
  pose proof (Z.div_mod y 100 ltac:(lia)). lia.
Qed.
Lemma flat_first {A B} (f : A -> list B) x l y : (exists ys, f x = y :: ys) -> exists ys, flat_map f (x :: l) = y :: ys.
Proof. intros [ys E]. cbn [flat_map]. rewrite E. cbn [app]. eauto. Qed.
Lemma days_eq y m : 1 <= m <= 12 -> days_in y m = month_days y m.
Proof.
  intros H. assert (Hi := range_in 1 m 12 ltac:(lia)). cbn [seq map] in Hi.
  repeat (destruct Hi as [<-|Hi]; [try reflexivity|]); [|destruct Hi]. unfold days_in, month_days, leap. cbn [Z.eqb Z.add]. cbn.
  destruct (y mod 4 =? 0) eqn:E4, (y mod 100 =? 0) eqn:E1, (y mod 400 =? 0) eqn:E40; cbn; try reflexivity; exfalso; apply Z.eqb_eq in E40; apply Z.eqb_neq in E4;
   apply E4; apply Z.mod_divide; [lia| |lia|]; apply Z.mod_divide in E40; try lia; eapply Z.divide_trans; try exact E40; exists 100; reflexivity.
Qed.
Lemma strptime_text d : valid_date d -> strptime (date_text d) = Ok d.
Proof.
  intros (Hy & Hm & Hd & Hh & Hi). rewrite <- days_eq in Hd by exact Hm.
  assert (Hd31 : d_day d <= 31).
  { destruct Hd as [_ Hd]. unfold days_in in Hd. destruct (d_month d =? 2); [destruct (leap (d_year d)); lia|]. destruct (existsb _ _); lia. }
  assert (E : exists l, re_date (date_text d) = (d, []) :: l).
  { unfold re_date, date_text. destruct (day_first (d_day d) (pad2 (d_month d) ++ pad2 (d_year d / 100) ++ pad2 (d_year d mod 100) ++ pad2 (d_hour d) ++ pad2 (d_minute d)) ltac:(lia)) as [l1 ->].
    apply flat_first. destruct (month_first (d_month d) (pad2 (d_year d / 100) ++ pad2 (d_year d mod 100) ++ pad2 (d_hour d) ++ pad2 (d_minute d)) Hm) as [l2 ->].
    apply flat_first. rewrite (year_first (d_year d) (pad2 (d_hour d) ++ pad2 (d_minute d))) by lia. apply flat_first.
    destruct (hour_first (d_hour d) (pad2 (d_minute d)) Hh) as [l3 ->]. apply flat_first.
    destruct (minute_first (d_minute d) [] Hi) as [l4 E4]. rewrite app_nil_r in E4. rewrite E4. cbn [map]. destruct d; cbn; eauto. }
  unfold strptime. destruct E as [l ->]. unfold exists_date. destruct (Z.leb_spec 1 (d_year d)); [|lia]. destruct (Z.leb_spec (d_day d) (days_in (d_year d) (d_month d))); [|lia]. reflexivity.
Qed.

(** *** BAD and tags *)
Lemma replace_skip c s new : c <> 66 -> replace3 66 65 68 new (c :: s) = c :: replace3 66 65 68 new s.
Proof.
  intros H. destruct s as [|y [|z r]]; [reflexivity|reflexivity|]. cbn [replace3]. destruct (Z.eqb_spec c 66); [contradiction|]. reflexivity.
Qed.
Lemma replace_app t s new : ~ In 66 t -> replace3 66 65 68 new (t ++ s) = t ++ replace3 66 65 68 new s.
Proof.
  induction t as [|c t IH]; intros H; [reflexivity|]. cbn [app]. rewrite replace_skip by (intros ->; apply H; left; reflexivity).
  rewrite IH by (intros X; apply H; right; exact X). reflexivity.
Qed.
Lemma replace_bad s new : replace3 66 65 68 new (str "BAD" ++ s) = new ++ replace3 66 65 68 new s.
Proof. reflexivity. Qed.
Lemma findall_none : forall fuel s, ~ In 60 s -> findall fuel s = [].
Proof.
  induction fuel as [|f IH]; intros s H; [reflexivity|]. cbn [findall]. assert (E : tag_at s = None).
  { destruct s as [|c s]; [reflexivity|]. destruct c as [|p|p]; try reflexivity. do 6 (destruct p as [p|p|]; try reflexivity); exfalso; apply H; left; reflexivity. }
  rewrite E. destruct s as [|c s]; [reflexivity|]. apply IH. intros X. apply H. right. exact X.
Qed.
