(** C43: unit conversion. *)
From Coq Require Import String ZArith Lia Bool Reals Lra.
From Coq Require Import List.
From Verif Require Import Base ModelBytes ProofBytes ModelUnits.
Import ListNotations.
Local Open Scope Z_scope.

(** The obvious implementation of str.lower on these characters meets the contract. *)
Theorem C43_contract_satisfiable : lower_ok (map lower_char).
Proof.
  split; [reflexivity|]. intros s c Hc Hs. apply in_map_iff. exists c. split; [|exact Hs].
  destruct Hc as [<-|[<-|[<-|[<-|[]]]]]; reflexivity.
Qed.

Lemma lookup_in t u e : lookup t u = Some e -> In (u, e) t.
Proof.
  induction t as [|[k x] t IH]; cbn; [discriminate|]. destruct (zs_eqb k u) eqn:E; [|auto].
  apply zs_eqb_eq in E as ->. intros H. left. congruence.
Qed.
Lemma fix_decoding_cases u : fix_decoding u = str "um" \/ fix_decoding u = u.
Proof.
  unfold fix_decoding. destruct (rev u) as [|z l]; auto.
  destruct (_ && _); auto.
Qed.
Lemma resolve_cases u e : resolve u = Some e -> In (u, e) unit_table \/ e = -6.
Proof.
  unfold resolve. destruct (lookup unit_table u) as [x|] eqn:E.
  - intros H. injection H as <-. left. apply lookup_in, E.
  - destruct (fix_decoding_cases u) as [-> | ->].
    + intros H. right. vm_compute in H. congruence.
    + rewrite E. discriminate.
Qed.
Lemma table_micro c u e : In c [117; 181; 956; 13211] -> In c u -> In (u, e) unit_table -> e = -6.
Proof.
  intros Hc Hu Ht.
  repeat (destruct Ht as [Ht|Ht]; [injection Ht as <- <-; cbn in Hu;
    first [reflexivity|exfalso; repeat (destruct Hc as [<-|Hc]; [intuition discriminate|]); destruct Hc]|]).
  destruct Ht.
Qed.

Section Units.
Context (lower : pystr -> pystr) (Hl : lower_ok lower).

Lemma sanitize_none s : (forall c, In c s -> mu_alias c = None) -> sanitize_mu s = s.
Proof.
  unfold sanitize_mu. induction s as [|c s IH]; intros H; [reflexivity|].
  cbn [map concat]. rewrite (H c) by (left; auto). cbn. f_equal. apply IH. intros; apply H; right; auto.
Qed.
Lemma sanitize_some s c r : In c s -> mu_alias c = Some r -> In 117 (sanitize_mu s).
Proof.
  intros Hc Hr. unfold sanitize_mu. apply in_concat. exists r. split.
  - apply in_map_iff. exists c. rewrite Hr. auto.
  - unfold mu_alias in Hr. repeat destruct (_ =? _) in Hr; try discriminate; injection Hr as <-; left; reflexivity.
Qed.
Lemma alias_in c r : mu_alias c = Some r -> In c [117; 181; 956; 13211].
Proof.
  unfold mu_alias. destruct (Z.eqb_spec c 181); [subst; cbn; auto|]. destruct (Z.eqb_spec c 956); [subst; cbn; auto|].
  destruct (Z.eqb_spec c 13211); [subst; cbn; auto|discriminate].
Qed.
Lemma resolve_both u e1 e2 : resolve (lower (sanitize_mu u)) = Some e1 -> resolve (lower u) = Some e2 -> e1 = e2.
Proof.
  intros H1 H2.
  destruct (existsb (fun c => match mu_alias c with Some _ => true | None => false end) u) eqn:E.
  - apply existsb_exists in E as (c & Hc & Hr). destruct (mu_alias c) as [r|] eqn:Er; [|discriminate].
    assert (e1 = -6).
    { destruct (resolve_cases _ _ H1) as [Ht|]; auto.
      apply (table_micro 117 (lower (sanitize_mu u)) e1); auto; [cbn; auto|].
      apply (lower_keeps lower Hl); [cbn; auto|]. eapply sanitize_some; eauto. }
    assert (e2 = -6).
    { destruct (resolve_cases _ _ H2) as [Ht|]; auto.
      apply (table_micro c (lower u) e2); auto; [eapply alias_in; eauto|].
      apply (lower_keeps lower Hl); auto. eapply alias_in; eauto. }
    congruence.
  - rewrite sanitize_none in H1; [congruence|]. intros c Hc.
    destruct (mu_alias c) as [r|] eqn:Er; auto. exfalso.
    assert (existsb (fun c => match mu_alias c with Some _ => true | None => false end) u = true).
    { apply existsb_exists. exists c. rewrite Er. auto. }
    congruence.
Qed.

(** C43: the factors form a consistent system: converting a unit into itself does nothing, there and back is the
    identity, and converting through an intermediate unit is converting directly. *)
Theorem C43_consistent :
  (forall a f, get_unit_conversion lower a a = Ok f -> f = 1%R) /\
  (forall a b f g, get_unit_conversion lower a b = Ok f -> get_unit_conversion lower b a = Ok g -> (f * g = 1)%R) /\
  (forall a b c f g, get_unit_conversion lower a b = Ok f -> get_unit_conversion lower b c = Ok g ->
     get_unit_conversion lower a c = Ok (f * g)%R).
Proof.
  assert (T : (10 <> 0)%R) by lra.
  assert (K : forall a b f, get_unit_conversion lower a b = Ok f -> exists e1 e2,
     resolve (lower (sanitize_mu a)) = Some e1 /\ resolve (lower b) = Some e2 /\ f = powerRZ 10 (e1 - e2)).
  { intros a b f H. unfold get_unit_conversion, conversion_exponent in H.
    destruct (resolve (lower (sanitize_mu a))) as [e1|]; [|discriminate].
    destruct (resolve (lower b)) as [e2|]; [|discriminate]. cbn in H. exists e1, e2. repeat split. congruence. }
  repeat split.
  - intros a f H. apply K in H as (e1 & e2 & H1 & H2 & ->). rewrite (resolve_both a e1 e2 H1 H2), Z.sub_diag.
    reflexivity.
  - intros a b f g H H'. apply K in H as (e1 & e2 & H1 & H2 & ->). apply K in H' as (e3 & e4 & H3 & H4 & ->).
    rewrite (resolve_both a e1 e4 H1 H4), (resolve_both b e3 e2 H3 H2), <- powerRZ_add by exact T.
    replace (e4 - e2 + (e2 - e4)) with 0 by lia. reflexivity.
  - intros a b c f g H H'. apply K in H as (e1 & e2 & H1 & H2 & ->). apply K in H' as (e3 & e4 & H3 & H4 & ->).
    unfold get_unit_conversion, conversion_exponent. rewrite H1, H4, (resolve_both b e3 e2 H3 H2), <- powerRZ_add by exact T.
    cbn [rmap]. do 2 f_equal. lia.
Qed.

(** the metric prefixes: what the names mean *)
Definition prefix_exponents : list (string * Z) :=
  [("m", 0); ("meter", 0); ("dm", -1); ("decimeter", -1); ("cm", -2); ("centimeter", -2); ("mm", -3);
   ("millimeter", -3); ("um", -6); ("micrometer", -6); ("nm", -9); ("nanometer", -9); ("pm", -12);
   ("picometer", -12)]%string.
(** C43: every pair of metric units, in any capitalisation, converts by the power of ten between the prefixes. *)
Theorem C43_metric : forall a ea b eb a' b', In (a, ea) prefix_exponents -> In (b, eb) prefix_exponents ->
  Forall (fun c => 0 <= c < 128) a' -> Forall (fun c => 0 <= c < 128) b' ->
  map lower_char a' = str a -> map lower_char b' = str b ->
  get_unit_conversion lower a' b' = Ok (powerRZ 10 (ea - eb)).
Proof.
  intros a ea b eb a' b' Ha Hb Fa Fb La Lb.
  assert (Sa : sanitize_mu a' = a').
  { apply sanitize_none. intros c Hc. rewrite Forall_forall in Fa. specialize (Fa c Hc). unfold mu_alias.
    destruct (Z.eqb_spec c 181); [lia|]. destruct (Z.eqb_spec c 956); [lia|]. destruct (Z.eqb_spec c 13211); [lia|].
    reflexivity. }
  unfold get_unit_conversion, conversion_exponent. rewrite Sa.
  rewrite (lower_latin lower Hl a'), (lower_latin lower Hl b'), La, Lb;
    try (eapply Forall_impl; [|eassumption]; intros c Hc; left; cbn in Hc; lia).
  assert (R : forall u e, In (u, e) prefix_exponents -> resolve (str u) = Some e).
  { intros u e Hu. repeat (destruct Hu as [Hu|Hu]; [injection Hu as <- <-; reflexivity|]). destruct Hu. }
  rewrite (R a ea Ha), (R b eb Hb). reflexivity.
Qed.

(** the ways to write micrometre *)
Definition micro_m : pystr := [181; 109].
Definition greek_m : pystr := [956; 109].
Definition square_um : pystr := [13211].
Theorem C43_micro_spellings_partial : forall u, In u [micro_m; greek_m; str "um"; str "UM"; str "micrometer"] ->
  get_unit_conversion lower u (str "m") = Ok (powerRZ 10 (-6)) /\
  get_unit_conversion lower (str "m") u = Ok (powerRZ 10 6).
Proof.
  intros u Hu. unfold get_unit_conversion, conversion_exponent.
  repeat (destruct Hu as [<-|Hu]; [split; rewrite !(lower_latin lower Hl) by (repeat constructor; lia); vm_compute; reflexivity|]).
  destruct Hu.
Qed.

(** the square sign for micrometre (U+339B) is understood as source unit and rejected as target unit *)
Theorem C43_target_spelling_refuted :
  get_unit_conversion lower square_um (str "m") = Ok (powerRZ 10 (-6)) /\
  get_unit_conversion lower (str "m") square_um = Err ValueError.
Proof.
  unfold get_unit_conversion, conversion_exponent.
  split; rewrite !(lower_latin lower Hl) by (repeat constructor; lia); vm_compute; reflexivity.
Qed.

(** "all known misdecodings of the micro sign are repaired" (fix_decoding_issues): false for the commonest one, the
    UTF-8 bytes of the micro sign read as Latin-1 (U+00C2 U+00B5): it is in the table of misdecodings, but both
    positions reject it, because the unit is lower-cased (and for the source: sanitised) before the lookup. *)
Definition mojibake_um : pystr := [194; 181; 109].
Theorem C43_mojibake_refuted :
  In [194; 181] mu_decodings /\
  get_unit_conversion lower mojibake_um (str "m") = Err ValueError /\
  get_unit_conversion lower (str "m") mojibake_um = Err ValueError.
Proof.
  split; [vm_compute; tauto|].
  unfold get_unit_conversion, conversion_exponent.
  split; rewrite !(lower_latin lower Hl) by (repeat constructor; lia); vm_compute; reflexivity.
Qed.

(** C43: no other exception; a result is returned only for units that name a metric unit (or a misdecoded micro
    sign followed by m, meaning micrometre). *)
Definition meaning (u : pystr) (e : Z) : Prop :=
  (exists n, In (n, e) prefix_exponents /\ u = str n) \/
  (e = -6 /\ exists s, In s mu_decodings /\ u = s ++ str "m").
Lemma resolve_meaning u e : resolve u = Some e -> meaning u e.
Proof.
  assert (T : forall v x, lookup unit_table v = Some x -> exists n, In (n, x) prefix_exponents /\ v = str n).
  { intros v x H. apply lookup_in in H. repeat (destruct H as [H|H]; [injection H as <- <-; eexists; split; [|reflexivity]; cbn; tauto|]).
    destruct H. }
  unfold resolve. destruct (lookup unit_table u) as [x|] eqn:E.
  - intros H. injection H as <-. left. apply T, E.
  - intros H. destruct (fix_decoding_cases u) as [Hf|Hf]; [|rewrite Hf, E in H; discriminate].
    rewrite Hf in H. vm_compute in H. injection H as <-.
    unfold fix_decoding in Hf. destruct (rev u) as [|z l] eqn:Er.
    { destruct u; [discriminate|]. apply (f_equal (@length Z)) in Er. rewrite rev_length in Er. discriminate. }
    assert (Hu : u = rev l ++ [z]) by (rewrite <- (rev_involutive u), Er; reflexivity).
    destruct ((z =? 109) && existsb (zs_eqb (rev l)) mu_decodings) eqn:Ex; [|rewrite Hf in E; discriminate].
    apply andb_prop in Ex as [Ez Ex]. apply Z.eqb_eq in Ez as ->.
    apply existsb_exists in Ex as (s & Hs & Hq). apply zs_eqb_eq in Hq. right. split; [reflexivity|].
    exists s. split; auto. rewrite Hu, Hq. reflexivity.
Qed.
Theorem C43_unknown : forall a b,
  match get_unit_conversion lower a b with
  | Ok f => exists e1 e2, meaning (lower (sanitize_mu a)) e1 /\ meaning (lower b) e2 /\ f = powerRZ 10 (e1 - e2)
  | Err e => e = ValueError /\
      ((forall e1, ~ exists n, In (n, e1) prefix_exponents /\ lower (sanitize_mu a) = str n) \/
       (forall e2, ~ exists n, In (n, e2) prefix_exponents /\ lower b = str n))
  end.
Proof.
  intros a b. unfold get_unit_conversion, conversion_exponent.
  assert (T : forall u, resolve u = None -> forall x, ~ exists n, In (n, x) prefix_exponents /\ u = str n).
  { intros u Hu x (n & Hn & ->). repeat (destruct Hn as [Hn|Hn]; [injection Hn as <- <-; discriminate|]). destruct Hn. }
  destruct (resolve (lower (sanitize_mu a))) as [e1|] eqn:E1; [destruct (resolve (lower b)) as [e2|] eqn:E2|]; cbn.
  - exists e1, e2. split; [apply resolve_meaning, E1|]. split; [apply resolve_meaning, E2|]. reflexivity.
  - split; [reflexivity|]. right. exact (T _ E2).
  - split; [reflexivity|]. left. exact (T _ E1).
Qed.
End Units.
