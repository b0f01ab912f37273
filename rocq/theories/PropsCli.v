(** C65, C66, C70, C71: command line, roughness_parameters, directories. *)
From Coq Require Import String ZArith Bool Lia Arith Permutation Sorted.
From Coq Require Import List.
From Verif Require Import Base ModelBytes ModelUnits ModelSur ModelDispatch ModelBatch ModelCli ProofBytes PropsDispatch PropsBatch.
Import ListNotations.
Local Open Scope list_scope.

(** *** C65, specification: the documented order *)
Section Order.
Context {St Num : Type}.
(** which option asks for which calls, in the documented order *)
Definition documented (o : opts Num) : list (scall Num) :=
  (if o_fill o then [Fill] else []) ++ (if o_level o then [Level] else []) ++ (if o_center o then [Center] else []) ++ (if o_zero o then [Zero] else []) ++
  (match o_threshold o with Some t => [Threshold t; Fill] | None => [] end) ++
  (match o_outliers o with Some n => [RemoveOutliers n; Fill] | None => [] end) ++
  (match o_highpass o with Some c => [Highpass c] | None => [] end) ++ (match o_lowpass o with Some c => [Lowpass c] | None => [] end) ++
  (match o_bandpass o with Some c => [Bandpass (fst c) (snd c)] | None => [] end).
Fixpoint run_all (run : scall Num -> St -> res St) (l : list (scall Num)) (s : St) : res St :=
  match l with [] => Ok s | c :: l' => rbind (run c s) (run_all run l') end.
Lemma run_all_app run a : forall b s, run_all run (a ++ b) s = rbind (run_all run a s) (run_all run b).
Proof. induction a as [|c a IH]; intros b s; cbn [app run_all]; [reflexivity|]. destruct (run c s) as [s1|e]; [apply IH|reflexivity]. Qed.
Lemma rbind_ok_id {A} (r : res A) : rbind r Ok = r.
Proof. destruct r; reflexivity. Qed.
Theorem C65_order (run : scall Num -> St -> res St) (o : opts Num) (s : St) :
  perform_surface_operations run o s = run_all run (documented o) s.
Proof.
  destruct o as [l f c z hp lp bp th ro]. unfold perform_surface_operations, documented. cbn [o_level o_fill o_center o_zero o_highpass o_lowpass o_bandpass o_threshold o_outliers].
  rewrite run_all_app.
  assert (W : forall (b : bool) x s, run_all run (if b then [x] else []) s = when b (run x) s).
  { intros [] x s1; cbn [run_all when]; [|reflexivity]. destruct (run x s1); reflexivity. }
  assert (G1 : forall {A} (o : option A) (g : A -> scall Num) s, run_all run (match o with Some x => [g x] | None => [] end) s = given o (fun x => run (g x)) s).
  { intros A [x|] g s1; cbn [run_all given]; [|reflexivity]. destruct (run (g x) s1); reflexivity. }
  assert (G2 : forall {A} (o : option A) (g : A -> scall Num) s, run_all run (match o with Some x => [g x; Fill] | None => [] end) s = given o (fun x s => rbind (run (g x) s) (run Fill)) s).
  { intros A [x|] g s1; cbn [run_all given]; [|reflexivity]. destruct (run (g x) s1) as [s2|]; cbn [rbind]; [|reflexivity]. destruct (run Fill s2); reflexivity. }
  rewrite W. destruct (when f (run Fill) s) as [s1|e]; [|reflexivity]. cbn [rbind].
  rewrite run_all_app, W. destruct (when l (run Level) s1) as [s2|e]; [|reflexivity]. cbn [rbind].
  rewrite run_all_app, W. destruct (when c (run Center) s2) as [s3|e]; [|reflexivity]. cbn [rbind].
  rewrite run_all_app, W. destruct (when z (run Zero) s3) as [s4|e]; [|reflexivity]. cbn [rbind].
  rewrite run_all_app, G2. destruct (given th _ s4) as [s5|e]; [|reflexivity]. cbn [rbind].
  rewrite run_all_app, G2. destruct (given ro _ s5) as [s6|e]; [|reflexivity]. cbn [rbind].
  rewrite run_all_app, G1. destruct (given hp _ s6) as [s7|e]; [|reflexivity]. cbn [rbind].
  rewrite run_all_app, G1. destruct (given lp _ s7) as [s8|e]; [|reflexivity]. cbn [rbind].
  symmetry. apply (G1 _ bp (fun c => Bandpass (fst c) (snd c))).
Qed.
(** the order of the options does not matter *)
Definition same_option (a b : occurrence Num) : Prop :=
  match a, b with
  | OLevel, OLevel | OFill, OFill | OCenter, OCenter | OZero, OZero | OHighpass _, OHighpass _ | OLowpass _, OLowpass _
  | OBandpass _, OBandpass _ | OThreshold _, OThreshold _ | OOutliers _, OOutliers _ => True
  | _, _ => False
  end.
Definition distinct_options (l : list (occurrence Num)) : Prop := ForallOrdPairs (fun a b => ~ same_option a b) l.
Lemma same_sym a b : same_option a b -> same_option b a.
Proof. destruct a, b; cbn; auto. Qed.
Lemma give_comm (o : opts Num) a b : ~ same_option a b -> give (give o a) b = give (give o b) a.
Proof. intros H. destruct o, a, b; cbn in *; try reflexivity; elim H; exact I. Qed.
Lemma distinct_perm (l l' : list (occurrence Num)) : Permutation l l' -> distinct_options l -> distinct_options l'.
Proof.
  induction 1 as [|x l l' P IH|x y l|l l2 l3 P1 IH1 P2 IH2]; intros D; auto.
  - inversion D as [|? ? D1 D2]; subst. constructor; [|apply IH; exact D2]. apply Forall_forall. intros z Hz. rewrite Forall_forall in D1. apply D1. eapply Permutation_in; [apply Permutation_sym; exact P|exact Hz].
  - inversion D as [|? ? D1 D2]; subst. inversion D2 as [|? ? D3 D4]; subst. inversion D1 as [|? ? D5 D6]; subst. constructor; [|constructor; assumption].
    constructor; [|exact D3]. intros S0. apply D5. apply same_sym. exact S0.
Qed.
Theorem C65_option_order (l l' : list (occurrence Num)) : Permutation l l' -> distinct_options l -> parse_options l = parse_options l'.
Proof.
  unfold parse_options. intros P. generalize (@no_opts Num). induction P as [|x l l' P IH|x y l|l l2 l3 P1 IH1 P2 IH2]; intros o D; cbn [fold_left].
  - reflexivity.
  - apply IH. inversion D; assumption.
  - rewrite (give_comm o y x); [reflexivity|]. inversion D as [|? ? D1 D2]; subst. inversion D1; subst. assumption.
  - rewrite IH1 by exact D. apply IH2. eapply distinct_perm; eassumption.
Qed.
(** mutually exclusive options are rejected before anything happens, all other combinations are executed *)
Definition is_filter (x : occurrence Num) : bool := match x with OHighpass _ | OLowpass _ | OBandpass _ => true | _ => false end.
Definition conflict (l : list (occurrence Num)) : Prop :=
  (exists a b, In a l /\ In b l /\ is_filter a = true /\ is_filter b = true /\ ~ same_option a b) \/ (In OCenter l /\ In OZero l).
Definition isSome {A} (o : option A) : bool := match o with Some _ => true | None => false end.
Lemma parse_given (l : list (occurrence Num)) : forall o, let p := fold_left give l o in
  (o_center p = true <-> o_center o = true \/ In OCenter l) /\ (o_zero p = true <-> o_zero o = true \/ In OZero l) /\
  (isSome (o_highpass p) = true <-> isSome (o_highpass o) = true \/ exists v, In (OHighpass v) l) /\
  (isSome (o_lowpass p) = true <-> isSome (o_lowpass o) = true \/ exists v, In (OLowpass v) l) /\
  (isSome (o_bandpass p) = true <-> isSome (o_bandpass o) = true \/ exists v, In (OBandpass v) l).
Proof.
  induction l as [|x l IH]; intros o; cbn [fold_left].
  - cbn zeta. cbn [In]. repeat split; intros H; try tauto; try (destruct H as [H|H]; [exact H|]; try destruct H as [v []]; try contradiction).
  - destruct (IH (give o x)) as (H1 & H2 & H3 & H4 & H5). cbn zeta in *. rewrite H1, H2, H3, H4, H5. cbn [In]. clear IH H1 H2 H3 H4 H5.
    destruct o as [ol of oc oz ohp olp obp oth oro].
    destruct x; cbn [give o_center o_zero o_highpass o_lowpass o_bandpass isSome]; repeat split; intros H;
      repeat match goal with
             | H : _ \/ _ |- _ => destruct H
             | H : exists _, _ |- _ => destruct H
             | H : OHighpass _ = OHighpass _ |- _ => clear H
             end; try discriminate; subst; eauto 6; try (left; reflexivity); try (right; eexists; left; reflexivity); try (right; eexists; right; eassumption); try (right; left; reflexivity); try (right; right; assumption).
Qed.
Theorem C65_exclusive (run : scall Num -> St -> res St) (args : list (occurrence Num)) (load : res St) :
  (conflict args -> command run args load = Err bad_parameter) /\
  (~ conflict args -> command run args load = rbind load (run_all run (documented (parse_options args)))).
Proof.
  unfold command. destruct (parse_given args no_opts) as (H1 & H2 & H3 & H4 & H5). cbn zeta in *. fold (parse_options args) in *.
  set (o := parse_options args) in *. unfold count_given.
  assert (S0 : forall {A} (x : option A), (if x then 1 else 0)%nat = if isSome x then 1%nat else 0%nat) by (intros A [x|]; reflexivity). rewrite !S0.
  cbn [o_center o_zero o_highpass o_lowpass o_bandpass no_opts isSome] in *.
  assert (C : conflict args <-> (1 < (if isSome (o_highpass o) then 1 else 0) + (if isSome (o_lowpass o) then 1 else 0) + (if isSome (o_bandpass o) then 1 else 0))%nat \/ (o_zero o = true /\ o_center o = true)).
  { unfold conflict. split.
    - intros [(a & b & Ha & Hb & Fa & Fb & N)|[Hc Hz]]; [left|right; split; [apply H2|apply H1]; right; assumption].
      assert (F : forall x, In x args -> is_filter x = true -> match x with OHighpass _ => isSome (o_highpass o) = true | OLowpass _ => isSome (o_lowpass o) = true | OBandpass _ => isSome (o_bandpass o) = true | _ => False end).
      { intros [ | | | |v|v|v|v|v] Hx Fx; try discriminate Fx; [apply H3|apply H4|apply H5]; right; exists v; exact Hx. }
      pose proof (F a Ha Fa) as Ga. pose proof (F b Hb Fb) as Gb.
      destruct a, b; try discriminate Fa; try discriminate Fb; cbn in N; try (elim N; exact I); rewrite Ga, Gb; repeat match goal with |- context [if ?x then _ else _] => destruct x end; lia.
    - intros [L|[Hz Hc]]; [left|right; split; [apply H1 in Hc; destruct Hc as [X|X]; [discriminate|exact X]|apply H2 in Hz; destruct Hz as [X|X]; [discriminate|exact X]]].
      destruct (isSome (o_highpass o)) eqn:E1, (isSome (o_lowpass o)) eqn:E2, (isSome (o_bandpass o)) eqn:E3; cbn in L; try lia;
        try (destruct (proj1 H3 eq_refl) as [X|[v3 V3]]; [discriminate|]); try (destruct (proj1 H4 eq_refl) as [X|[v4 V4]]; [discriminate|]); try (destruct (proj1 H5 eq_refl) as [X|[v5 V5]]; [discriminate|]).
      + exists (OHighpass v3), (OLowpass v4). cbn. tauto.
      + exists (OHighpass v3), (OLowpass v4). cbn. tauto.
      + exists (OHighpass v3), (OBandpass v5). cbn. tauto.
      + exists (OLowpass v4), (OBandpass v5). cbn. tauto. }
  destruct (Nat.ltb_spec 1 ((if isSome (o_highpass o) then 1 else 0) + (if isSome (o_lowpass o) then 1 else 0) + (if isSome (o_bandpass o) then 1 else 0))) as [L|L].
  - split; [reflexivity|]. intros N. elim N. apply C. left. exact L.
  - destruct (o_zero o) eqn:Ez, (o_center o) eqn:Ec; cbn [andb].
    + split; [reflexivity|]. intros N. elim N. apply C. right. auto.
    + split; [intros X; apply C in X; destruct X as [X|[_ X]]; [lia|discriminate]|]. intros _. destruct load as [s|e]; [|reflexivity]. cbn [rbind]. apply C65_order.
    + split; [intros X; apply C in X; destruct X as [X|[X _]]; [lia|discriminate]|]. intros _. destruct load as [s|e]; [|reflexivity]. cbn [rbind]. apply C65_order.
    + split; [intros X; apply C in X; destruct X as [X|[X _]]; [lia|discriminate]|]. intros _. destruct load as [s|e]; [|reflexivity]. cbn [rbind]. apply C65_order.
Qed.
End Order.
(** surfalize show f --lowpass 10 --level --threshold 1 2 -fn: the surface is a log of the calls *)
Theorem C65_example :
  let args := [OLowpass 10; OLevel; OThreshold (1, 2); OFill]%nat in
  distinct_options args /\ ~ conflict args /\
  command (fun c s => Ok (s ++ [c])) args (Ok []) = Ok [Fill; Level; Threshold (1, 2); Fill; Lowpass 10]%nat /\
  command (fun c s => Ok (s ++ [c])) [OCenter; OZero] (Ok ([] : list (scall nat))) = Err bad_parameter.
Proof.
  cbn zeta. split; [repeat constructor; cbn; tauto|]. split; [|split; reflexivity].
  intros [(a & b & Ha & Hb & Fa & Fb & N)|[H _]].
  - cbn [In] in Ha, Hb. destruct Ha as [<-|[<-|[<-|[<-|[]]]]]; try discriminate Fa. destruct Hb as [<-|[<-|[<-|[<-|[]]]]]; try discriminate Fb. apply N. exact I.
  - cbn [In] in H. repeat (destruct H as [H|H]; [discriminate|]). exact H.
Qed.

(** *** C66 *)
Section Rough.
Context {St V : Type} (call : string -> St -> res V * St) (available iso : list string).
(** calculating a parameter does not change the surface (C01-C06: only its cache) *)
Context (pure : forall p s, snd (call p s) = s).
Lemma rp_loop_spec l : forall results s, NoDup (map fst results) ->
  match fst (rp_loop call available l results s) with
  | Ok d => (forall p, In p l -> In p available /\ exists v, fst (call p s) = Ok v /\ dget p d = Some v) /\
            (forall p, ~ In p l -> dget p d = dget p results) /\ NoDup (map fst d)
  | Err e => exists pre p post, l = pre ++ p :: post /\ (forall q, In q pre -> In q available /\ is_ok (fst (call q s)) = true) /\
               ((~ In p available /\ e = ValueError) \/ (In p available /\ fst (call p s) = Err e))
  end.
Proof.
  induction l as [|p l IH]; intros results s Hn; cbn [rp_loop].
  - cbn [fst]. split; [intros p []|]. split; [reflexivity|exact Hn].
  - destruct (existsb (String.eqb p) available) eqn:Ea.
    + apply existsb_eqb in Ea. pose proof (pure p s) as P. destruct (call p s) as [[v|e] s'] eqn:Ec; cbn [snd] in P; subst s'.
      * specialize (IH (dset p v results) s (NoDup_dset p v results Hn)). destruct (fst (rp_loop call available l (dset p v results) s)) as [d|e].
        -- destruct IH as (I1 & I2 & I3). split; [|split; [|exact I3]].
           ++ intros q [<-|Hq]; [|apply I1; exact Hq]. split; [exact Ea|]. exists v. rewrite Ec. split; [reflexivity|].
              destruct (in_dec string_dec p l) as [Hi|Hi]; [destruct (I1 p Hi) as (_ & v' & E' & ->); rewrite Ec in E'; cbn [fst] in E'; congruence|].
              rewrite I2 by exact Hi. rewrite dget_dset, String.eqb_refl. reflexivity.
           ++ intros q Hq. rewrite I2 by (intros X; apply Hq; right; exact X). rewrite dget_dset. destruct (String.eqb_spec q p) as [->|]; [elim Hq; left; reflexivity|reflexivity].
        -- destruct IH as (pre & q & post & -> & I2 & I3). exists (p :: pre), q, post. split; [reflexivity|]. split; [|exact I3].
           intros x [<-|Hx]; [split; [exact Ea|rewrite Ec; reflexivity]|apply I2; exact Hx].
      * exists [], p, l. split; [reflexivity|]. split; [intros q []|]. right. rewrite Ec. split; [exact Ea|reflexivity].
    + exists [], p, l. split; [reflexivity|]. split; [intros q []|]. left. split; [|reflexivity]. intros X. apply existsb_eqb in X. congruence.
Qed.
(** exactly the requested keys, each with the value of the direct call; an error is that of the first name that is unknown
    (ValueError) or fails *)
Theorem C66_roughness_parameters (l : list string) (s : St) :
  match fst (roughness_parameters call available iso (Some l) s) with
  | Ok d => (forall p, In p (map fst d) <-> In p l) /\ NoDup (map fst d) /\
            forall p, In p l -> In p available /\ exists v, fst (call p s) = Ok v /\ dget p d = Some v
  | Err e => exists pre p post, l = pre ++ p :: post /\ (forall q, In q pre -> In q available /\ is_ok (fst (call q s)) = true) /\
               ((~ In p available /\ e = ValueError) \/ (In p available /\ fst (call p s) = Err e))
  end.
Proof.
  unfold roughness_parameters. pose proof (rp_loop_spec l [] s (NoDup_nil _)) as H. destruct (fst (rp_loop call available l [] s)) as [d|e]; [|exact H].
  destruct H as (H1 & H2 & H3). split; [|split; assumption]. intros p. split.
  - intros Hp. destruct (in_dec string_dec p l) as [Hi|Hi]; [exact Hi|]. specialize (H2 p Hi). cbn [dget] in H2. apply dget_none in H2. contradiction.
  - intros Hp. destruct (H1 p Hp) as (_ & v & _ & E). apply dget_in in E. apply in_map_iff. exists (p, v). auto.
Qed.
(** without an argument: all ISO parameters; the surface itself is not changed *)
Theorem C66_default (s : St) : roughness_parameters call available iso None s = roughness_parameters call available iso (Some iso) s.
Proof. reflexivity. Qed.
Theorem C66_unchanged (l : option (list string)) (s : St) : snd (roughness_parameters call available iso l s) = s.
Proof.
  unfold roughness_parameters. generalize (@nil (string * V)). set (k := match l with Some l => l | None => iso end). clearbody k.
  induction k as [|p k IH]; intros r; cbn [rp_loop]; [reflexivity|]. destruct (existsb (String.eqb p) available); [|reflexivity].
  pose proof (pure p s) as P. destruct (call p s) as [[v|e] s']; cbn [snd] in P; subst s'; [apply IH|reflexivity].
Qed.
End Rough.
Theorem C66_example :
  let call := fun p (s : Z) => (if String.eqb p "Str" then Err CalculationError else Ok (s + Z.of_nat (String.length p))%Z, s) in
  fst (roughness_parameters call ["Sa"; "Sdr"; "Str"]%string ["Sa"; "Sdr"]%string (Some ["Sdr"; "Sa"; "Sdr"]%string) 5%Z) = Ok [("Sdr", 8%Z); ("Sa", 7%Z)]%string /\
  fst (roughness_parameters call ["Sa"; "Sdr"; "Str"]%string ["Sa"; "Sdr"]%string (Some ["Sa"; "nope"]%string) 5%Z) = Err ValueError /\
  fst (roughness_parameters call ["Sa"; "Sdr"; "Str"]%string ["Sa"; "Sdr"]%string None 5%Z) = Ok [("Sa", 7%Z); ("Sdr", 8%Z)]%string.
Proof. repeat split; reflexivity. Qed.

(** *** C70: conversion on the command line *)
Lemma after_last_none c s : after_last c s = None <-> ~ In c s.
Proof.
  induction s as [|x s IH]; cbn [after_last In]; [tauto|]. destruct (after_last c s) as [t|].
  - split; [discriminate|]. intros H. assert (Some t = None) by (apply IH; tauto). discriminate.
  - destruct (Z.eqb_spec x c) as [->|N]; [split; [discriminate|tauto]|]. split; [|reflexivity]. intros _ [H|H]; [contradiction|]. apply IH; [reflexivity|exact H].
Qed.
Lemma after_last_some c s t : after_last c s = Some t <-> exists a, s = a ++ c :: t /\ ~ In c t.
Proof.
  revert t. induction s as [|x s IH]; intros t; cbn [after_last].
  - split; [discriminate|]. intros ([|? ?] & H & _); discriminate.
  - destruct (after_last c s) as [u|] eqn:E.
    + split.
      * intros [= <-]. destruct (proj1 (IH u) eq_refl) as (a & -> & N). exists (x :: a). auto.
      * intros (a & H & N). destruct a as [|y a]; cbn [app] in H.
        -- exfalso. injection H as -> ->. apply after_last_none in N. congruence.
        -- injection H as -> ->. apply IH. exists a. auto.
    + apply after_last_none in E. destruct (Z.eqb_spec x c) as [->|N].
      * split; [intros [= <-]; exists []; auto|]. intros (a & H & N). destruct a as [|y a]; cbn [app] in H; [injection H as <-; reflexivity|].
        exfalso. injection H as _ ->. apply E. apply in_or_app. right. left. reflexivity.
      * split; [discriminate|]. intros (a & H & _). destruct a as [|y a]; cbn [app] in H; [injection H as -> _; contradiction|].
        exfalso. injection H as _ ->. apply E. apply in_or_app. right. left. reflexivity.
Qed.
(** an extension in the usual form: a dot followed by something without dots and slashes *)
Definition simple_ext (e : pystr) : Prop := exists t, e = 46%Z :: t /\ t <> [] /\ ~ In 46%Z t /\ ~ In 47%Z t.
Definition simple_extb (e : pystr) : bool :=
  match e with 46%Z :: (_ :: _) as t => negb (existsb (Z.eqb 46) (tl e)) && negb (existsb (Z.eqb 47) (tl e)) | _ => false end.
Lemma simple_extb_ok e : simple_extb e = true -> simple_ext e.
Proof.
  assert (X : forall c l, negb (existsb (Z.eqb c) l) = true -> ~ In c l).
  { intros c l H Hi. apply negb_true_iff in H. assert (existsb (Z.eqb c) l = true) by (apply existsb_exists; exists c; split; [exact Hi|apply Z.eqb_refl]). congruence. }
  unfold simple_extb. destruct e as [|x e]; [discriminate|]. intros H.
  assert (Hx : x = 46%Z) by (destruct (Z.eq_dec x 46) as [E|E]; [exact E|]; destruct x as [|[]|]; try discriminate; repeat (destruct p; try discriminate); contradiction E; reflexivity).
  subst x. destruct e as [|y e]; [discriminate|]. cbn [tl] in H. apply andb_true_iff in H. destruct H as [H1 H2].
  exists (y :: e). repeat split; [discriminate|apply X; exact H1|apply X; exact H2].
Qed.
Lemma readers_simple e : In e (map fst readers_by_suffix) -> simple_ext e.
Proof.
  intros H. apply simple_extb_ok. assert (G : forallb simple_extb (map fst readers_by_suffix) = true) by (vm_compute; reflexivity).
  exact (proj1 (forallb_forall _ _) G e H).
Qed.
Lemma writers_simple e : In e (map fst writers) -> simple_ext e.
Proof.
  intros H. apply simple_extb_ok. assert (G : forallb simple_extb (map fst writers) = true) by (vm_compute; reflexivity).
  exact (proj1 (forallb_forall _ _) G e H).
Qed.
Lemma path_name_plain n : ~ In 47%Z n -> path_name n = n.
Proof. intros H. unfold path_name. apply after_last_none in H. rewrite H. reflexivity. Qed.
Lemma path_name_join d n : ~ In 47%Z n -> path_name (join d n) = n.
Proof. intros H. unfold path_name, join. cbn [app]. assert (E : after_last 47 (d ++ 47%Z :: n) = Some n) by (apply after_last_some; exists d; auto). rewrite E. reflexivity. Qed.
(** pathlib's suffix: the text from the last dot on, unless the dot is the first character of the name *)
Lemma suffix_iff p e : simple_ext e -> path_suffix p = e <-> exists stem, stem <> [] /\ path_name p = stem ++ e.
Proof.
  intros (t & -> & Ht & N46 & _). unfold path_suffix. cbv zeta. destruct (after_last 46 (path_name p)) as [u|] eqn:E.
  - destruct (proj1 (after_last_some _ _ _) E) as (a & Ea & Nu). split.
    + destruct u as [|c u]; [intros H; discriminate|]. destruct (Nat.eqb_spec (length (path_name p)) (S (length (c :: u)))) as [L|L]; [discriminate|].
      intros H. injection H as H. exists a. split; [|rewrite Ea, H; reflexivity]. intros ->. apply L. rewrite Ea. reflexivity.
    + intros (stem & Hs & H). assert (Hu : Some u = Some t). { rewrite <- E. apply after_last_some. exists stem. auto. }
      injection Hu as ->. destruct t as [|c t]; [contradiction|]. destruct (Nat.eqb_spec (length (path_name p)) (S (length (c :: t)))) as [L|L]; [|reflexivity].
      exfalso. rewrite H, app_length in L. cbn [length] in L. destruct stem; [contradiction|cbn [length] in L; lia].
  - split; [discriminate|]. intros (stem & _ & H). apply after_last_none in E. exfalso. apply E. rewrite H. apply in_or_app. right. left. reflexivity.
Qed.
Lemma stem_suffix p : path_stem p ++ path_suffix p = path_name p.
Proof.
  unfold path_stem. cbv zeta. assert (G : exists a, path_name p = a ++ path_suffix p).
  { unfold path_suffix. cbv zeta. destruct (after_last 46 (path_name p)) as [[|c u]|] eqn:E; try (exists (path_name p); symmetry; apply app_nil_r).
    apply after_last_some in E. destruct E as (a & Ea & _). destruct (Nat.eqb _ _); [exists (path_name p); symmetry; apply app_nil_r|exists a; exact Ea]. }
  destruct G as (a & Ea). rewrite Ea at 1 2. rewrite app_length. replace (length a + length (path_suffix p) - length (path_suffix p))%nat with (length a) by lia.
  rewrite firstn_app, Nat.sub_diag, firstn_all. cbn [firstn]. rewrite app_nil_r. symmetry. exact Ea.
Qed.
Lemma join_inj d n n' : join d n = join d n' -> n = n'.
Proof. unfold join. intros H. apply app_inv_head in H. injection H as H. exact H. Qed.
Lemma in_existsb e l : existsb (zs_eqb e) l = true <-> In e l.
Proof.
  rewrite existsb_exists. split.
  - intros (x & Hx & E). destruct (zs_eqb e x) eqn:Ez; [|discriminate]. apply zs_eqb_eq in Ez. subst x. exact Hx.
  - intros H. exists e. split; [exact H|apply zs_eqb_refl].
Qed.

(** Specification: a name in a directory is readable if it is a regular file whose suffix has a reader *)
Definition readable (e : pystr * bool) : Prop := snd e = true /\ exists f, In (path_suffix (fst e), f) readers_by_suffix.
(** A directory of arbitrary names: the conversions are the readable files, each exactly once and in the order of the listing; every
    output lies in the output directory, has the stem of its input and is written in the requested format; different stems give
    different outputs. *)
Theorem C70_directory (dir out : pystr) (entries : list (pystr * bool)) (format : pystr) (f : ModelDispatch.format) (compressed : bool) :
  In (format, f) writers -> (compressed = true -> f = Sur) ->
  (forall e, In e entries -> ~ In 47%Z (fst e)) ->
  exists jobs files, convert (InDir dir entries) out false format compressed = Ok jobs /\
    (forall e, In e files <-> In e entries /\ readable e) /\ (NoDup entries -> NoDup files) /\
    map j_in jobs = map (fun e => join dir (fst e)) files /\
    map j_out jobs = map (fun e => join out (path_stem (fst e) ++ format)) files /\
    (forall j, In j jobs -> path_suffix (j_out j) = format /\ job_result j = Ok f /\ j_compressed j = (if format_eqb f Sur then Some compressed else None)) /\
    (NoDup (map (fun e => path_stem (fst e)) files) -> NoDup (map j_out jobs)).
Proof.
  intros Hw Hc Hn. unfold convert. cbv zeta.
  assert (Hin : In format (map fst writers)) by (apply in_map_iff; exists (format, f); auto).
  assert (Ef : zs_eqb format (str ".sur") = format_eqb f Sur).
  { clear - Hw. cbn [writers In] in Hw. repeat (destruct Hw as [Hw|Hw]; [apply pair_equal_spec in Hw; destruct Hw as [<- <-]; vm_compute; reflexivity|]). contradiction. }
  assert (E0 : negb (zs_eqb format (str ".sur")) && compressed = false).
  { rewrite Ef. destruct compressed; [rewrite (Hc eq_refl); reflexivity|apply andb_false_r]. }
  rewrite E0. rewrite (proj2 (in_existsb format (map fst writers)) Hin). cbn [negb].
  set (files := List.filter _ entries). set (g := fun e : pystr * bool => _). exists (map g files), files. split; [reflexivity|].
  assert (Hf : forall e, In e files <-> In e entries /\ readable e).
  { intros e. unfold files. rewrite filter_In. unfold readable. rewrite andb_true_iff, in_existsb.
    assert (X : In (path_suffix (fst e)) (map fst readers_by_suffix) <-> exists f0, In (path_suffix (fst e), f0) readers_by_suffix).
    { rewrite in_map_iff. split; [intros ([a b] & <- & H); exists b; exact H|intros (b & H); exists (path_suffix (fst e), b); auto]. }
    rewrite X. reflexivity. }
  split; [exact Hf|]. split; [intros H; apply NoDup_filter; exact H|].
  split; [rewrite map_map; reflexivity|]. split; [rewrite map_map; reflexivity|]. split.
  - intros j Hj. apply in_map_iff in Hj. destruct Hj as (e & <- & He). apply Hf in He. destruct He as [He (_ & r & Hr)]. cbn [g j_out j_compressed].
    assert (Hsuf : path_suffix (join out (path_stem (fst e) ++ format)) = format).
    { apply suffix_iff; [apply writers_simple; exact Hin|]. exists (path_stem (fst e)).
      assert (Sx : simple_ext (path_suffix (fst e))) by (apply readers_simple; apply in_map_iff; exists (path_suffix (fst e), r); auto).
      destruct (proj1 (suffix_iff (fst e) _ Sx) eq_refl) as (st & Hst & Est). rewrite <- stem_suffix in Est. apply app_inv_tail in Est. rewrite Est. split; [exact Hst|].
      rewrite path_name_join; [reflexivity|]. intros Hi. apply in_app_iff in Hi. destruct Hi as [Hi|Hi].
      - apply (Hn e He). rewrite <- (path_name_plain (fst e)) by (apply Hn; exact He). rewrite <- stem_suffix, Est. apply in_or_app. left. exact Hi.
      - destruct (writers_simple format Hin) as (t & -> & _ & _ & N). destruct Hi as [Hi|Hi]; [discriminate|contradiction]. }
    split; [exact Hsuf|]. split; [|rewrite Ef; reflexivity].
    unfold job_result. replace (path_suffix (j_out (g e))) with format by (symmetry; exact Hsuf). cbn [g j_compressed]. rewrite (in_assoc _ _ _ writers_nodup Hw), Ef. destruct (format_eqb f Sur); reflexivity.
  - intros Hs. rewrite map_map. cbn [g j_out]. clear - Hs.
    induction files as [|e l IH]; cbn [map] in *; [constructor|]. apply NoDup_cons_iff in Hs. destruct Hs as [Hi Hs]. constructor; [|apply IH; exact Hs].
    intros H. apply Hi. apply in_map_iff in H. destruct H as (e' & H & He'). apply join_inj in H. apply app_inv_tail in H. apply in_map_iff. exists e'. auto.
Qed.
(** A single file: one conversion, into exactly the file named by the user, in the format of that name, provided that file exists or
    the format option agrees with its name. *)
Theorem C70_file (p out : pystr) (exists_ : bool) (format : pystr) (f : ModelDispatch.format) (compressed : bool) :
  In (path_suffix out, f) writers -> (exists_ = true \/ format = path_suffix out) -> (compressed = true -> f = Sur) ->
  exists kw, convert (InFile p) out exists_ format compressed = Ok [mkJob p out kw] /\ job_result (mkJob p out kw) = Ok f /\
    kw = (if format_eqb f Sur then Some compressed else None).
Proof.
  intros Hw He Hc. exists (if format_eqb f Sur then Some compressed else None). unfold convert. cbv zeta.
  assert (E : (if exists_ then path_suffix out else format) = path_suffix out) by (destruct He as [-> | ->]; [reflexivity|destruct exists_; reflexivity]). rewrite E.
  assert (Hin : In (path_suffix out) (map fst writers)) by (apply in_map_iff; exists (path_suffix out, f); auto).
  assert (Ef : zs_eqb (path_suffix out) (str ".sur") = format_eqb f Sur).
  { clear - Hw. revert Hw. generalize (path_suffix out). intros s Hw. cbn [writers In] in Hw.
    repeat (destruct Hw as [Hw|Hw]; [apply pair_equal_spec in Hw; destruct Hw as [<- <-]; vm_compute; reflexivity|]). contradiction. }
  rewrite Ef. assert (E0 : negb (format_eqb f Sur) && compressed = false) by (destruct compressed; [rewrite (Hc eq_refl); reflexivity|apply andb_false_r]).
  rewrite E0, (proj2 (in_existsb _ _) Hin). cbn [negb]. split; [reflexivity|]. split; [|reflexivity].
  unfold job_result. cbn [j_out j_compressed]. rewrite (in_assoc _ _ _ writers_nodup Hw). destruct (format_eqb f Sur); reflexivity.
Qed.
(** An unsupported format converts nothing; --compressed with another format than .sur is rejected. *)
Theorem C70_unsupported (inp : input) (out : pystr) (format : pystr) :
  ~ In format (map fst writers) -> convert inp out false format false = Ok [].
Proof.
  intros H. unfold convert. cbv zeta. rewrite andb_false_r. destruct (existsb (zs_eqb format) (map fst writers)) eqn:E; [|reflexivity]. apply in_existsb in E. contradiction.
Qed.
Theorem C70_compressed (inp : input) (out : pystr) (exists_ : bool) (format : pystr) :
  (if exists_ then path_suffix out else format) <> str ".sur" -> convert inp out exists_ format true = Err bad_parameter.
Proof. intros H. unfold convert. cbv zeta. apply zs_eqb_false in H. rewrite H. reflexivity. Qed.
Theorem C70_example :
  rmap (map (fun j => (j_in j, j_out j))) (convert (InDir (str "d") [(str "a.plu", true); (str "b.txt", true); (str "c.v2.sur", true); (str "e.sur", false)]) (str "o") false (str ".sdf") false) =
  Ok [(str "d/a.plu", str "o/a.sdf"); (str "d/c.v2.sur", str "o/c.v2.sdf")].
Proof. vm_compute. reflexivity. Qed.
(** Not guaranteed: two readable files with the same stem are converted into the same output, so the second overwrites the first. *)
Theorem C70_same_stem_refuted :
  exists entries jobs, NoDup entries /\ convert (InDir (str "d") entries) (str "o") false (str ".sur") false = Ok jobs /\ length jobs = 2%nat /\ ~ NoDup (map j_out jobs).
Proof.
  exists [(str "a.plu", true); (str "a.sdf", true)]. eexists. split; [|split; [vm_compute; reflexivity|split; [reflexivity|]]].
  - repeat constructor; cbn [In]; intuition discriminate.
  - cbn [map j_out]. intros H. apply NoDup_cons_iff in H. apply (proj1 H). left. reflexivity.
Qed.
(** Not guaranteed: converting to a new file with another suffix than the default format fails with a TypeError (the keyword argument of
    the .sur writer is passed to the other writer). *)
Theorem C70_new_file_refuted :
  exists jobs, convert (InFile (str "a.plu")) (str "out.sdf") false (str ".sur") false = Ok jobs /\ map job_result jobs = [Err TypeError].
Proof. eexists. split; vm_compute; reflexivity. Qed.

(** *** C71: collecting the files of a directory *)
Lemma ends_with_iff s e : ends_with s e = true <-> exists stem, s = stem ++ e.
Proof.
  unfold ends_with. rewrite andb_true_iff, Nat.leb_le. split.
  - intros [L E]. apply zs_eqb_eq in E. exists (firstn (length s - length e) s). rewrite <- E at 2. symmetry. apply firstn_skipn.
  - intros (stem & ->). rewrite app_length. split; [lia|]. replace (length stem + length e - length e)%nat with (length stem) by lia.
    rewrite skipn_app, Nat.sub_diag, skipn_all. cbn [skipn app]. apply zs_eqb_refl.
Qed.
(** two extensions in the usual form that end the same name are equal *)
Lemma simple_ext_unique s e e' : simple_ext e -> simple_ext e' -> ends_with s e = true -> ends_with s e' = true -> e = e'.
Proof.
  intros (t & -> & _ & N & _) (t' & -> & _ & N' & _) H H'. apply ends_with_iff in H, H'. destruct H as (a & H), H' as (a' & H').
  assert (E : after_last 46 s = Some t) by (apply after_last_some; exists a; auto).
  assert (E' : after_last 46 s = Some t') by (apply after_last_some; exists a'; auto). congruence.
Qed.
Lemma NoDup_app_intro {A} (l r : list A) : NoDup l -> NoDup r -> (forall x, In x l -> ~ In x r) -> NoDup (l ++ r).
Proof.
  induction l as [|x l IH]; intros Hl Hr H; [exact Hr|]. apply NoDup_cons_iff in Hl. destruct Hl as [Hx Hl]. cbn [app]. constructor.
  - intros Hi. apply in_app_iff in Hi. destruct Hi as [Hi|Hi]; [contradiction|]. apply (H x); [left; reflexivity|exact Hi].
  - apply IH; [exact Hl|exact Hr|]. intros y Hy. apply H. right. exact Hy.
Qed.
(** Every entry that ends with one of the extensions is listed exactly once, nothing else is listed; the extensions may come in any
    order but must be different and of the usual form. *)
Theorem C71_each_once (entries exts : list pystr) : NoDup entries -> NoDup exts -> (forall e, In e exts -> simple_ext e) ->
  NoDup (from_dir entries exts) /\ (forall n, In n (from_dir entries exts) <-> In n entries /\ exists e stem, In e exts /\ n = stem ++ e).
Proof.
  intros Hn He Hs. unfold from_dir, glob. split.
  - induction exts as [|e exts IH]; cbn [flat_map]; [constructor|]. apply NoDup_cons_iff in He. destruct He as [Hi He].
    apply NoDup_app_intro; [apply NoDup_filter; exact Hn|apply IH; [exact He|intros x Hx; apply Hs; right; exact Hx]|].
    intros n H H'. apply filter_In in H. apply in_flat_map in H'. destruct H' as (e' & He' & H'). apply filter_In in H'.
    apply Hi. replace e with e'; [exact He'|]. eapply simple_ext_unique; [apply Hs; right; exact He'|apply Hs; left; reflexivity|apply H'|apply H].
  - intros n. rewrite in_flat_map. split.
    + intros (e & H & H'). apply filter_In in H'. destruct H' as [Hi Hw]. apply ends_with_iff in Hw. destruct Hw as (st & ->). split; [exact Hi|]. exists e, st. auto.
    + intros (Hi & e & st & H & ->). exists e. split; [exact H|]. apply filter_In. split; [exact Hi|]. apply ends_with_iff. exists st. reflexivity.
Qed.
(** Without extensions: the suffixes of all readers in whatever order the set yields them.  Listed are the entries whose suffix has a
    reader (and the entries that consist of nothing but such a suffix, for which pathlib reports no suffix). *)
Theorem C71_default (entries exts : list pystr) : NoDup entries -> (forall n, In n entries -> ~ In 47%Z n) -> Permutation exts (map fst readers_by_suffix) ->
  NoDup (from_dir entries exts) /\
  (forall n, In n (from_dir entries exts) <-> In n entries /\ ((exists f, In (path_suffix n, f) readers_by_suffix) \/ (exists f, In (n, f) readers_by_suffix))).
Proof.
  intros Hn Hsl Hp.
  destruct (C71_each_once entries exts Hn) as [H1 H2].
  - eapply Permutation_NoDup; [apply Permutation_sym; exact Hp|apply suffixes_nodup].
  - intros e He. apply readers_simple. eapply Permutation_in; eassumption.
  - split; [exact H1|]. intros n. rewrite H2. split; intros (Hi & H); (split; [exact Hi|]).
    + destruct H as (e & st & He & ->). assert (He' : In e (map fst readers_by_suffix)) by (eapply Permutation_in; eassumption).
      assert (Hf : exists f, In (e, f) readers_by_suffix) by (apply in_map_iff in He'; destruct He' as ([a b] & <- & Hab); exists b; exact Hab). destruct Hf as (f & Hf).
      destruct st as [|c st]; [right; exists f; exact Hf|]. left. exists f.
      replace (path_suffix ((c :: st) ++ e)) with e; [exact Hf|]. symmetry. apply suffix_iff; [apply readers_simple; exact He'|]. exists (c :: st). split; [discriminate|]. apply path_name_plain. apply Hsl. exact Hi.
    + destruct H as [(f & Hf)|(f & Hf)].
      * assert (He : In (path_suffix n) (map fst readers_by_suffix)) by (apply in_map_iff; exists (path_suffix n, f); auto).
        destruct (proj1 (suffix_iff n _ (readers_simple _ He)) eq_refl) as (st & _ & E). rewrite path_name_plain in E by (apply Hsl; exact Hi).
        exists (path_suffix n), st. split; [eapply Permutation_in; [apply Permutation_sym; exact Hp|exact He]|exact E].
      * exists n, []. split; [|reflexivity]. eapply Permutation_in; [apply Permutation_sym; exact Hp|]. apply in_map_iff. exists (n, f). auto.
Qed.
Theorem C71_example : from_dir [str "a.sur"; str "b.txt"; str "c.plu"; str "d.plux"] (map fst readers_by_suffix) = [str "c.plu"; str "d.plux"; str "a.sur"].
Proof. vm_compute. reflexivity. Qed.
(** Not guaranteed: extensions given twice, or of which one ends with the other, list a file twice. *)
Theorem C71_overlap_refuted : exists entries exts, NoDup entries /\ NoDup exts /\ ~ NoDup (from_dir entries exts).
Proof.
  exists [str "a.raw.sur"], [str ".sur"; str ".raw.sur"]. split; [repeat constructor; auto|]. split; [repeat constructor; cbn [In]; intuition discriminate|].
  vm_compute. intros H. apply NoDup_cons_iff in H. apply (proj1 H). left. reflexivity.
Qed.
(** Not guaranteed: a file with an upper case suffix is not found although Surface.load accepts it (common.py:457 lowers the suffix). *)
Theorem C71_upper_case_refuted : exists n f, In (lower_ascii (path_suffix n), f) readers_by_suffix /\ from_dir [n] (map fst readers_by_suffix) = [].
Proof. exists (str "A.SUR"), Sur. split; [vm_compute; tauto|vm_compute; reflexivity]. Qed.
