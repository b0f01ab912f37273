(** C58, C59: filename templates (surfalize/batch.py:36-178). *)
From Coq Require Import String ZArith Bool Lia Arith.
From Coq Require Import List.
From Verif Require Import Base ModelBytes ModelUnits ModelSur ModelFormats ModelTemplate ProofBytes PropsSdf PropsAl3d.
Import ListNotations.
Local Open Scope Z_scope.

(** *** Specification: what a template is *)
Definition LT : Z := 60.
Definition GT : Z := 62.
Definition BAR : Z := 124.
Definition has_no (cs : list Z) (s : pystr) : Prop := forall c, In c s -> ~ In c cs.
(** the text between the brackets: name|type, name|type|prefix or name|type|prefix|suffix *)
Definition spells (s name dtype prefix suffix : pystr) : Prop :=
  (s = name ++ BAR :: dtype /\ prefix = [] /\ suffix = []) \/
  (s = name ++ BAR :: dtype ++ BAR :: prefix /\ suffix = []) \/
  (s = name ++ BAR :: dtype ++ BAR :: prefix ++ BAR :: suffix).
Record token_ok (t : token) : Prop := {
  tok_spelled : spells (t_str t) (t_name t) (t_dtype t) (t_prefix t) (t_suffix t);
  tok_name : has_no [LT; GT; BAR] (t_name t);
  tok_dtype : has_no [LT; GT; BAR] (t_dtype t);
  tok_prefix : has_no [LT; GT; BAR] (t_prefix t);
  tok_suffix : has_no [LT; GT; BAR] (t_suffix t) }.
(** separator, <token>, separator, <token>, ..., separator *)
Fixpoint template_of (l : list (pystr * token)) (end_ : pystr) : pystr :=
  match l with
  | [] => end_
  | (s, t) :: l' => s ++ LT :: t_str t ++ GT :: template_of l' end_
  end.
Definition plain : pystr -> Prop := has_no [LT; GT].

(** *** The loop *)
Lemma plain_cons c s : plain (c :: s) -> c <> 60 /\ c <> 62 /\ plain s.
Proof.
  intros H. pose proof (H c (or_introl eq_refl)) as N. split; [|split].
  - intros ->. apply N. left. reflexivity.
  - intros ->. apply N. right. left. reflexivity.
  - intros x Hx. apply H. right. exact Hx.
Qed.
Lemma plain_app a b : plain (a ++ b) <-> plain a /\ plain b.
Proof.
  unfold plain, has_no. split.
  - intros H. split; intros c Hc; apply H; apply in_or_app; auto.
  - intros [H1 H2] c Hc. apply in_app_or in Hc. destruct Hc; auto.
Qed.
Lemma loop_plain p : forall st s, plain p ->
  parse_loop st (p ++ s) = parse_loop
    (if st_started st then mkSt (st_tokens st) (st_seps st) true (st_sep st) (st_token st ++ p)
     else mkSt (st_tokens st) (st_seps st) false (st_sep st ++ p) (st_token st)) s.
Proof.
  induction p as [|c p IH]; intros [ts ss b sp tk] s H; cbn [app st_started st_tokens st_seps st_sep st_token].
  - rewrite !app_nil_r. destruct b; reflexivity.
  - apply plain_cons in H. destruct H as (N1 & N2 & H). cbn [parse_loop]. unfold parse_char.
    destruct (Z.eqb_spec c 60); [contradiction|]. destruct (Z.eqb_spec c 62); [contradiction|].
    destruct b; cbn [st_started st_tokens st_seps st_sep st_token rbind]; rewrite IH by exact H;
      cbn [st_started st_tokens st_seps st_sep st_token]; rewrite <- app_assoc; reflexivity.
Qed.
Lemma make_token_ok t : token_ok t -> make_token (t_str t) = Ok t.
Proof.
  intros [Sp N1 N2 N3 N4]. unfold make_token.
  assert (B : forall x, has_no [LT; GT; BAR] x -> forall c, In c x -> c <> 124).
  { intros x Hx c Hc ->. apply (Hx 124 Hc). right. right. left. reflexivity. }
  destruct t as [s n d p q]. cbn [t_str t_name t_dtype t_prefix t_suffix] in *.
  destruct Sp as [(E & -> & ->)|[(E & ->)|E]]; rewrite E; unfold BAR.
  - rewrite split_on_app, split_on_none by (apply B; assumption). reflexivity.
  - rewrite !split_on_app, split_on_none by (apply B; assumption). reflexivity.
  - rewrite !split_on_app, split_on_none by (apply B; assumption). reflexivity.
Qed.
Lemma token_plain t : token_ok t -> plain (t_str t).
Proof.
  intros [Sp N1 N2 N3 N4].
  assert (B : forall x, has_no [LT; GT; BAR] x -> plain x).
  { intros x Hx c Hc Hi. apply (Hx c Hc). destruct Hi as [->|[->|[]]]; [left|right; left]; reflexivity. }
  assert (C : forall x y, plain x -> plain y -> plain (x ++ BAR :: y)).
  { intros x y Hx Hy. apply plain_app. split; [exact Hx|]. intros c [<-|Hc]; [|apply Hy; exact Hc]. intros [E|[E|[]]]; discriminate. }
  destruct Sp as [(E & _ & _)|[(E & _)|E]]; rewrite E; auto 7.
Qed.

(** *** C58: templates parse to exactly the tokens and separators they are made of *)
Lemma loop_template l : forall end_ ts ss sp tk, Forall (fun x => plain (fst x) /\ token_ok (snd x)) l -> plain end_ ->
  exists tk', parse_loop (mkSt ts ss false sp tk) (template_of l end_) =
    Ok (match l with
        | [] => mkSt ts ss false (sp ++ end_) tk'
        | (s, t) :: l' => mkSt (rev (map snd l) ++ ts) (rev (map fst l') ++ (sp ++ s) :: ss) false end_ tk'
        end).
Proof.
  induction l as [|[s t] l IH]; intros end_ ts ss sp tk Hl He; cbn [template_of].
  - exists tk. rewrite <- (app_nil_r end_) at 1. rewrite loop_plain by exact He. reflexivity.
  - apply Forall_cons_iff in Hl. destruct Hl as [[Hs Ht] Hl]. cbn [fst snd] in Hs, Ht.
    rewrite loop_plain by exact Hs. cbn [st_started st_tokens st_seps st_sep st_token].
    change (LT :: t_str t ++ GT :: template_of l end_) with ([LT] ++ (t_str t ++ GT :: template_of l end_)).
    cbn [parse_loop app]. unfold parse_char at 1. cbn [Z.eqb LT Pos.eqb st_started rbind st_tokens st_seps st_sep st_token].
    rewrite loop_plain by (apply token_plain; exact Ht). cbn [st_started st_tokens st_seps st_sep st_token app].
    cbn [parse_loop]. unfold parse_char at 1. cbn [Z.eqb GT Pos.eqb st_started rbind st_tokens st_seps st_sep st_token].
    rewrite make_token_ok by exact Ht. cbn [rbind].
    destruct (IH end_ (t :: ts) ((sp ++ s) :: ss) [] (t_str t) Hl He) as [tk' E]. exists tk'. etransitivity; [exact E|]. f_equal.
    destruct l as [|[s1 t1] l]; cbn [map rev fst snd app].
    + reflexivity.
    + rewrite <- !app_assoc. reflexivity.
Qed.
Theorem C58_parse (l : list (pystr * token)) (end_ : pystr) :
  Forall (fun x => plain (fst x) /\ token_ok (snd x)) l -> plain end_ ->
  parse_template (template_of l end_) = Ok (map snd l, map fst l ++ [end_]).
Proof.
  intros Hl He. unfold parse_template. destruct (loop_template l end_ [] [] [] [] Hl He) as [tk E]. rewrite E. cbn [rbind].
  destruct l as [|[s t] l]; cbn [st_started st_tokens st_seps st_sep].
  - reflexivity.
  - rewrite app_nil_r. f_equal. f_equal.
    + rewrite rev_involutive. reflexivity.
    + cbn [app rev map fst]. rewrite rev_app_distr, rev_involutive. reflexivity.
Qed.

(** *** C58: nothing else is accepted, apart from stray closing brackets *)
Lemma split_on_ne sep t : split_on sep t <> [].
Proof. induction t as [|x t IHt]; [discriminate|]. cbn [split_on]. destruct (split_on sep t); [discriminate|]. destruct (x =? sep); discriminate. Qed.
Lemma split_on_join s : s = match split_on 124 s with [] => [] | x :: r => x ++ concat (map (cons 124) r) end.
Proof.
  induction s as [|c s IH]; [reflexivity|]. cbn [split_on]. pose proof (split_on_ne 124 s).
  destruct (split_on 124 s) as [|p ps]; [contradiction|].
  destruct (Z.eqb_spec c 124) as [->|N]; cbn [concat map app]; rewrite IH at 1; reflexivity.
Qed.
Lemma split_on_parts s : forall x, In x (split_on 124 s) -> forall c, In c x -> In c s /\ c <> 124.
Proof.
  induction s as [|c s IH]; cbn [split_on].
  - intros x [<-|[]] c [].
  - pose proof (split_on_ne 124 s). destruct (split_on 124 s) as [|p ps]; [contradiction|].
    destruct (Z.eqb_spec c 124) as [->|N].
    + intros x [<-|Hx] c0 Hc; [destruct Hc|]. destruct (IH x Hx c0 Hc). split; [right|]; assumption.
    + intros x [<-|Hx] c0 Hc.
      * destruct Hc as [<-|Hc]; [split; [left; reflexivity|exact N]|]. destruct (IH p (or_introl eq_refl) c0 Hc). split; [right|]; assumption.
      * destruct (IH x (or_intror Hx) c0 Hc). split; [right|]; assumption.
Qed.
Lemma make_token_inv s t : make_token s = Ok t -> plain s -> t_str t = s /\ token_ok t.
Proof.
  unfold make_token. intros H Hp. pose proof (split_on_join s) as E. pose proof (split_on_parts s) as I.
  assert (B : forall x, In x (split_on 124 s) -> has_no [LT; GT; BAR] x).
  { intros x Hx c Hc. destruct (I x Hx c Hc) as [I1 I2]. intros [E0|[E0|[E0|[]]]]; subst c; [| |contradiction I2; reflexivity].
    - apply (Hp LT I1). left. reflexivity.
    - apply (Hp GT I1). right. left. reflexivity. }
  assert (B0 : has_no [LT; GT; BAR] []) by (intros c []).
  destruct (split_on 124 s) as [|n [|d [|p [|q [|r rs]]]]]; try discriminate H; apply f_equal with (f := fun r => match r with Ok x => x | Err _ => t end) in H;
    subst t; cbn [t_str]; (split; [reflexivity|]); cbn [concat map app] in E; rewrite ?app_nil_r in E;
    constructor; cbn [t_str t_name t_dtype t_prefix t_suffix]; try (apply B; cbn; tauto); try exact B0.
  - left. auto.
  - right. left. split; [|reflexivity]. exact E.
  - right. right. exact E.
Qed.

Lemma template_snoc l s t e : template_of (l ++ [(s, t)]) e = template_of l s ++ LT :: t_str t ++ GT :: e.
Proof. induction l as [|[s1 t1] l IH]; cbn [template_of app]; [reflexivity|]. rewrite IH, <- !app_assoc. cbn [app]. rewrite <- !app_assoc. reflexivity. Qed.
Lemma template_end l s x : template_of l (s ++ x) = template_of l s ++ x.
Proof. induction l as [|[s1 t1] l IH]; cbn [template_of]; [reflexivity|]. rewrite IH, <- !app_assoc. cbn [app]. rewrite <- !app_assoc. reflexivity. Qed.

Definition parts_ok (l : list (pystr * token)) : Prop := Forall (fun x => plain (fst x) /\ token_ok (snd x)) l.
Definition inv (u : pystr) (st : pstate) : Prop :=
  plain (st_sep st) /\ plain (st_token st) /\
  if st_started st then
    (length (st_seps st) <= S (length (st_tokens st)))%nat /\
    (exists a, u = a ++ LT :: st_token st) /\
    (length (st_seps st) = S (length (st_tokens st)) -> exists l s0, parts_ok l /\ plain s0 /\
       st_tokens st = rev (map snd l) /\ st_seps st = s0 :: rev (map fst l) /\ u = template_of l s0 ++ LT :: st_token st) /\ st_sep st = []
  else
    (length (st_seps st) <= length (st_tokens st))%nat /\
    (st_token st = [] \/ exists t, make_token (st_token st) = Ok t) /\
    (length (st_seps st) = length (st_tokens st) -> exists l, parts_ok l /\
       st_tokens st = rev (map snd l) /\ st_seps st = rev (map fst l) /\ u = template_of l (st_sep st)).
Lemma plain_snoc s c : plain s -> c <> 60 -> c <> 62 -> plain (s ++ [c]).
Proof. intros H N1 N2. apply plain_app. split; [exact H|]. intros x [<-|[]] [E|[E|[]]]; unfold LT, GT in E; congruence. Qed.
Lemma plain_nil : plain [].
Proof. intros c []. Qed.
Lemma parse_char_inv u st c st' : inv u st -> parse_char st c = Ok st' -> inv (u ++ [c]) st'.
Proof.
  destruct st as [ts ss b sp tk]. unfold inv, parse_char. cbn [st_started st_tokens st_seps st_sep st_token].
  intros (P1 & P2 & H) HR. destruct (Z.eqb_spec c 60) as [->|N1].
  - destruct b; [discriminate|]. apply f_equal with (f := fun r => match r with Ok x => x | Err _ => st' end) in HR. subst st'.
    cbn [st_started st_tokens st_seps st_sep st_token]. destruct H as (L & _ & H). split; [exact plain_nil|]. split; [exact plain_nil|].
    cbn [length]. split; [lia|]. split; [exists u; reflexivity|]. split; [|reflexivity]. intros E. destruct H as (l & Hl & -> & -> & ->); [lia|].
    exists l, sp. repeat split; try assumption.
  - destruct (Z.eqb_spec c 62) as [->|N2].
    + destruct (make_token tk) as [t|e] eqn:Et; [|discriminate]. cbn [rbind] in HR.
      apply f_equal with (f := fun r => match r with Ok x => x | Err _ => st' end) in HR. subst st'.
      cbn [st_started st_tokens st_seps st_sep st_token length]. split; [exact P1|]. split; [exact P2|].
      destruct b.
      * destruct H as (L & _ & H & ->). split; [lia|]. split; [right; exists t; exact Et|]. intros E.
        destruct H as (l & s0 & Hl & Hs & -> & -> & ->); [lia|]. destruct (make_token_inv _ _ Et P2) as [Es Ht].
        exists (l ++ [(s0, t)]). split; [apply Forall_app; split; [exact Hl|]; constructor; [split; assumption|constructor]|].
        rewrite !map_app, !rev_app_distr. split; [reflexivity|]. split; [reflexivity|]. rewrite template_snoc, Es, <- app_assoc. reflexivity.
      * destruct H as (L & _ & _). split; [lia|]. split; [right; exists t; exact Et|]. intros E. lia.
    + destruct b; apply f_equal with (f := fun r => match r with Ok x => x | Err _ => st' end) in HR; subst st';
        cbn [st_started st_tokens st_seps st_sep st_token].
      * split; [exact P1|]. split; [apply plain_snoc; assumption|]. destruct H as (L & (a & Ha) & H & E0). split; [exact L|].
        split; [exists a; rewrite Ha, <- app_assoc; reflexivity|]. split; [|exact E0]. intros E. destruct (H E) as (l & s0 & H1 & H2 & H3 & H4 & H5).
        exists l, s0. repeat split; try assumption. rewrite H5, <- app_assoc. reflexivity.
      * split; [apply plain_snoc; assumption|]. split; [exact P2|]. destruct H as (L & H0 & H). split; [exact L|]. split; [exact H0|].
        intros E. destruct (H E) as (l & H1 & H2 & H3 & H4). exists l. repeat split; try assumption. rewrite template_end, H4. reflexivity.
Qed.
Lemma parse_loop_inv s : forall u st st', inv u st -> parse_loop st s = Ok st' -> inv (u ++ s) st'.
Proof.
  induction s as [|c s IH]; intros u st st' H HR; cbn [parse_loop] in HR.
  - rewrite app_nil_r. apply f_equal with (f := fun r => match r with Ok x => x | Err _ => st' end) in HR. subst st'. exact H.
  - destruct (parse_char st c) as [st1|e] eqn:E; [|discriminate]. cbn [rbind] in HR.
    change (c :: s) with ([c] ++ s). rewrite app_assoc. eapply IH; [|exact HR]. eapply parse_char_inv; eassumption.
Qed.
Lemma inv_start : inv [] (mkSt [] [] false [] []).
Proof.
  split; [exact plain_nil|]. split; [exact plain_nil|]. cbn. split; [lia|]. split; [left; reflexivity|]. intros _. exists []. repeat split. constructor.
Qed.
(** When there is one separator more than tokens the result is the template itself. *)
Theorem C58_sound (s : pystr) (ts : list token) (ss : list pystr) :
  parse_template s = Ok (ts, ss) ->
  (length ss <= S (length ts))%nat /\
  (length ss = S (length ts) -> exists l end_, parts_ok l /\ plain end_ /\ s = template_of l end_ /\ ts = map snd l /\ ss = map fst l ++ [end_]).
Proof.
  unfold parse_template. destruct (parse_loop (mkSt [] [] false [] []) s) as [[ts1 ss1 b sp tk]|e] eqn:E; [|discriminate].
  cbn [rbind st_started st_tokens st_seps st_sep]. pose proof (parse_loop_inv s [] _ _ inv_start E) as I.
  unfold inv in I. cbn [st_started st_tokens st_seps st_sep st_token app] in I. destruct b; [discriminate|].
  intros HR. assert (E1 : rev ts1 = ts /\ rev (sp :: ss1) = ss) by (split; congruence). destruct E1 as [<- <-]. clear HR.
  destruct I as (P1 & _ & L & _ & H). cbn [rev]. rewrite app_length, !rev_length. cbn [length]. split; [lia|].
  intros El. destruct H as (l & Hl & -> & -> & ->); [lia|]. exists l, sp. rewrite !rev_involutive. repeat split; assumption.
Qed.

Lemma parse_loop_app a : forall st b, parse_loop st (a ++ b) = rbind (parse_loop st a) (fun st' => parse_loop st' b).
Proof.
  induction a as [|c a IH]; intros st b; cbn [app parse_loop]; [reflexivity|]. destruct (parse_char st c) as [st1|e]; [|reflexivity].
  cbn [rbind]. apply IH.
Qed.
(** Every accepted opening bracket is closed before the next one and before the end, by a token with two to four parts. *)
Theorem C58_brackets (a b : pystr) r :
  parse_template (a ++ LT :: b) = Ok r ->
  exists tok c, b = tok ++ GT :: c /\ plain tok /\ (1 <= count_occ Z.eq_dec tok BAR <= 3)%nat.
Proof.
  unfold parse_template. rewrite parse_loop_app.
  destruct (parse_loop (mkSt [] [] false [] []) a) as [[ts ss b0 sp tk]|e]; [|discriminate]. cbn [rbind parse_loop].
  unfold parse_char at 1. cbn [Z.eqb LT Pos.eqb st_started]. destruct b0; [discriminate|]. cbn [rbind st_tokens st_seps st_sep].
  assert (P : exists p q, b = p ++ q /\ plain p /\ (q = [] \/ exists c q', q = c :: q' /\ (c = 60 \/ c = 62))).
  { clear. induction b as [|c b IHb].
    - exists [], []. split; [reflexivity|]. split; [exact plain_nil|left; reflexivity].
    - destruct IHb as (p & q & E & Hp & Hq). destruct (Z.eq_dec c 60) as [->|N1]; [exists [], (60 :: b); repeat split; [exact plain_nil|right; exists 60, b; auto]|].
      destruct (Z.eq_dec c 62) as [->|N2]; [exists [], (62 :: b); repeat split; [exact plain_nil|right; exists 62, b; auto]|].
      exists (c :: p), q. subst b. split; [reflexivity|]. split; [|exact Hq]. change (c :: p) with ([c] ++ p). apply plain_app. split; [|exact Hp].
      apply (plain_snoc [] c plain_nil N1 N2). }
  destruct P as (p & q & -> & Hp & Hq). rewrite loop_plain by exact Hp. cbn [st_started st_tokens st_seps st_sep st_token app].
  destruct Hq as [->|(c & q' & -> & [-> | ->])].
  - cbn [parse_loop rbind st_started]. discriminate.
  - cbn [parse_loop]. unfold parse_char at 1. cbn [Z.eqb Pos.eqb st_started rbind]. discriminate.
  - cbn [parse_loop]. unfold parse_char at 1. cbn [Z.eqb Pos.eqb st_started rbind st_token].
    destruct (make_token p) as [t|e] eqn:Et; [|discriminate]. intros _. exists p, q'. split; [reflexivity|]. split; [exact Hp|].
    pose proof (split_on_length 124 p) as L. unfold make_token in Et. unfold BAR.
    destruct (split_on 124 p) as [|x [|x1 [|x2 [|x3 [|x4 xs]]]]]; try discriminate Et; cbn [length] in L; lia.
Qed.
(** The only failures: ParsingError, or ValueError for a bracket with more than four parts. *)
Theorem C58_errors (s : pystr) e : parse_template s = Err e ->
  e = ParsingError \/ (e = ValueError /\ exists a tok b, s = a ++ LT :: tok ++ GT :: b /\ plain tok /\ (4 <= count_occ Z.eq_dec tok BAR)%nat).
Proof.
  unfold parse_template.
  assert (G : forall s u st, inv u st -> forall e, parse_loop st s = Err e -> e = ParsingError \/
    (e = ValueError /\ exists a tok b, u ++ s = a ++ LT :: tok ++ GT :: b /\ plain tok /\ (4 <= count_occ Z.eq_dec tok BAR)%nat)).
  { clear. induction s as [|c s IH]; intros u st I e; cbn [parse_loop]; [discriminate|].
    destruct (parse_char st c) as [st1|e1] eqn:E; cbn [rbind].
    - intros He. specialize (IH (u ++ [c]) st1 (parse_char_inv _ _ _ _ I E) e He). rewrite <- app_assoc in IH. exact IH.
    - intros He. assert (e1 = e) by congruence. subst e1. clear He IH. unfold parse_char in E. destruct (Z.eqb_spec c 60) as [->|N1].
      + destruct (st_started st); [left; congruence|discriminate].
      + destruct (Z.eqb_spec c 62) as [->|N2]; [|destruct (st_started st); discriminate].
        destruct (make_token (st_token st)) as [t|e1] eqn:Et; [discriminate|]. cbn [rbind] in E. assert (e1 = e) by congruence. subst e1.
        pose proof (split_on_length 124 (st_token st)) as L. unfold inv in I.
        destruct I as (_ & P & I). destruct (st_started st).
        * destruct I as (_ & (a & Ea) & _). unfold make_token in Et.
          destruct (split_on 124 (st_token st)) as [|x [|x1 [|x2 [|x3 [|x4 xs]]]]]; try discriminate Et; cbn [length] in L;
            assert (Ee : e = ParsingError \/ e = ValueError) by (first [left; congruence|right; congruence]);
            first [left; congruence|right; split; [congruence|]].
          exists a, (st_token st), s. split; [rewrite Ea, <- app_assoc; reflexivity|]. split; [exact P|]. unfold BAR. lia.
        * destruct I as (_ & [E0|(t & Ht)] & _); [|congruence]. rewrite E0 in Et. cbn in Et. left. congruence. }
  destruct (parse_loop (mkSt [] [] false [] []) s) as [[ts1 ss1 b sp tk]|e1] eqn:E; cbn [rbind st_started].
  - destruct b; [intros H; left; congruence|discriminate].
  - intros H. apply (G s [] _ inv_start). congruence.
Qed.
(** An unknown data type is a ParsingError when the expression is built, and nothing else fails there. *)
Theorem C58_types (ts : list token) (ss : list pystr) :
  match construct_regex ts ss with
  | Ok _ => Forall (fun t => In (t_dtype t) [str "int"; str "float"; str "str"]) ts
  | Err e => e = ParsingError /\ Exists (fun t => ~ In (t_dtype t) [str "int"; str "float"; str "str"]) ts
  end.
Proof.
  unfold construct_regex.
  assert (K : forall d, match kind_of d with Ok _ => In d [str "int"; str "float"; str "str"]
                        | Err e => e = ParsingError /\ ~ In d [str "int"; str "float"; str "str"] end).
  { intros d. unfold kind_of. destruct (zs_eqb d (str "float")) eqn:E1; [apply zs_eqb_eq in E1; subst; right; left; reflexivity|].
    destruct (zs_eqb d (str "int")) eqn:E2; [apply zs_eqb_eq in E2; subst; left; reflexivity|].
    destruct (zs_eqb d (str "str")) eqn:E3; [apply zs_eqb_eq in E3; subst; right; right; left; reflexivity|].
    split; [reflexivity|]. intros [<-|[<-|[<-|[]]]]; rewrite zs_eqb_refl in *; discriminate. }
  induction ts as [|t ts IH]; cbn [rmapl]; [cbn; constructor|]. unfold pattern_of at 1. specialize (K (t_dtype t)).
  destruct (kind_of (t_dtype t)) as [k|e]; cbn [rbind].
  - destruct (rmapl pattern_of ts) as [ps|e]; cbn [rbind rmap] in *.
    + constructor; assumption.
    + destruct IH as [-> IH]. split; [reflexivity|]. right. exact IH.
  - destruct K as [-> K]. split; [reflexivity|]. left. exact K.
Qed.
(** Stray closing brackets are accepted: they repeat the last token. *)
Theorem C58_stray_refuted :
  exists s ts ss, parse_template s = Ok (ts, ss) /\ length ss <> S (length ts) /\ ts = [mkToken (str "a|int") (str "a") (str "int") [] []; mkToken (str "a|int") (str "a") (str "int") [] []].
Proof. exists (str "<a|int>>x"). eexists. eexists. split; [vm_compute; reflexivity|]. split; [vm_compute; discriminate|reflexivity]. Qed.
(** A bracket with five parts is not a ParsingError. *)
Theorem C58_parts_refuted : exists s, parse_template s = Err ValueError.
Proof. exists (str "<a|int|b|c|d>"). vm_compute. reflexivity. Qed.

(** *** C59, specification: file names assembled from a template *)
(** characters without a meaning in regular expressions; '.' is allowed here, it matches itself too *)
Definition literal (s : pystr) : Prop := forall c, In c s -> special c = false.
Definition starts_with_digit (s : pystr) : Prop := exists c r, s = c :: r /\ 48 <= c <= 57.
Definition digits (s : pystr) : Prop := s <> [] /\ Forall (fun c => 48 <= c <= 57) s.
Definition field := (pystr * token * pystr)%type.     (* separator, token, text of the value *)
Definition f_sep (x : field) : pystr := fst (fst x).
Definition f_tok (x : field) : token := snd (fst x).
Definition f_text (x : field) : pystr := snd x.
(** separator prefix value suffix ... end tail (the tail is what follows the template, e.g. the file extension) *)
Fixpoint filename_of (l : list field) (end_ tail : pystr) : pystr :=
  match l with
  | [] => end_ ++ tail
  | x :: l' => f_sep x ++ t_prefix (f_tok x) ++ f_text x ++ t_suffix (f_tok x) ++ filename_of l' end_ tail
  end.
(** which texts stand for which value *)
Inductive encodes : pystr -> pystr -> cellv -> Prop :=
  | enc_int d z : digits d -> dec_value d = z -> z < 2 ^ 63 -> encodes (str "int") d (CInt z)
  | enc_float d : digits d -> encodes (str "float") d (CFloat d)
  | enc_decimal a c b : digits a -> digits b -> (c = 46 \/ c = 44) -> encodes (str "float") (a ++ c :: b) (CFloat (a ++ 46 :: b))
  | enc_str s : s <> [] -> ~ In 10 s -> encodes (str "str") s (CStr s).
(** the literal text that follows a field in the template *)
Definition next_literal (l : list field) (end_ : pystr) : pystr :=
  match l with [] => end_ | x :: _ => f_sep x ++ t_prefix (f_tok x) end.
(** the value can be told apart from what follows it ([lit]: the literal of the template, [rest]: the rest of the name) *)
Definition delimited (dtype text lit rest : pystr) : Prop :=
  (dtype = str "int" -> ~ starts_with_digit rest) /\
  (dtype = str "float" -> ~ starts_with_digit rest /\
     (digits text -> forall c r, rest = c :: r -> c = 46 \/ c = 44 -> ~ starts_with_digit r)) /\
  (dtype = str "str" -> exists c lit', lit = c :: lit' /\ c <> 46 /\ ~ In c (tl rest)).
Fixpoint decodable (l : list field) (end_ tail : pystr) : Prop :=
  match l with
  | [] => True
  | x :: l' => delimited (t_dtype (f_tok x)) (f_text x) (t_suffix (f_tok x) ++ next_literal l' end_)
                 (t_suffix (f_tok x) ++ filename_of l' end_ tail) /\ decodable l' end_ tail
  end.
Definition field_ok (x : field) : Prop :=
  plain (f_sep x) /\ literal (f_sep x) /\ token_ok (f_tok x) /\ literal (t_prefix (f_tok x)) /\ literal (t_suffix (f_tok x)) /\
  identifier (t_name (f_tok x)) = true.

(** *** The regular expression *)
Definition lit (c : Z) : item := if c =? 46 then IAny else ILit c.
Definition compiles (s : pystr) (its : list item) : Prop := forall n, (length s < n)%nat -> compile n s = Some its.
Lemma compiles_nil : compiles [] [].
Proof. intros [|n] H; [cbn in H; lia|reflexivity]. Qed.
Lemma compiles_lit p : forall r its, literal p -> compiles r its -> compiles (p ++ r) (map lit p ++ its).
Proof.
  induction p as [|c p IH]; intros r its Hp Hr; [exact Hr|]. intros [|n] Hn; [cbn in Hn; lia|]. cbn [app length] in Hn.
  assert (Hc : special c = false) by (apply Hp; left; reflexivity).
  assert (N : strip_prefix (str "(?P<") ((c :: p) ++ r) = None).
  { cbn [app]. change (str "(?P<") with (40 :: str "?P<"). cbn [strip_prefix]. destruct (Z.eqb_spec 40 c) as [E|E]; [|reflexivity].
    exfalso. subst c. vm_compute in Hc. discriminate. }
  cbn [compile]. cbn [app] in N |- *. rewrite N, Hc.
  assert (E : compile n (p ++ r) = Some (map lit p ++ its)).
  { apply IH; [intros x Hx; apply Hp; right; exact Hx|exact Hr|lia]. }
  cbn [map]. unfold lit at 1. destruct (c =? 46); rewrite E; reflexivity.
Qed.
Lemma strip_prefix_app p r : strip_prefix p (p ++ r) = Some r.
Proof. induction p as [|x p IH]; [reflexivity|]. cbn [strip_prefix app]. rewrite Z.eqb_refl. exact IH. Qed.
Lemma until_app c p r : ~ In c p -> until c (p ++ c :: r) = Some (p, r).
Proof.
  induction p as [|x p IH]; intros H; cbn [app until].
  - rewrite Z.eqb_refl. reflexivity.
  - destruct (Z.eqb_spec x c) as [->|N]; [destruct H; left; reflexivity|]. rewrite IH by (intros Hi; apply H; right; exact Hi). reflexivity.
Qed.
Lemma compiles_group name k r its : ~ In 62 name -> compiles r its -> compiles (group_re name k ++ r) (IGroup name k :: its).
Proof.
  intros Hn Hr n Hl. destruct n as [|n]; [lia|]. unfold group_re in *. rewrite <- !app_assoc in *.
  assert (Hl' : (length r < n)%nat) by (rewrite !app_length in Hl; cbn [length] in Hl; change (length (str "(?P<")) with 4%nat in Hl; lia). clear Hl.
  set (tail := name ++ [62] ++ type_re k ++ [41] ++ r) in *.
  pose proof (strip_prefix_app (str "(?P<") tail) as Hs. pose proof (until_app 62 name (type_re k ++ [41] ++ r) Hn) as Hu.
  assert (Hg : group_body (type_re k ++ [41] ++ r) = Some (k, r)) by (destruct k; reflexivity).
  change (str "(?P<" ++ tail) with (40 :: str "?P<" ++ tail) in *. cbn [compile]. rewrite Hs. unfold tail. cbn [app] in Hu, Hg |- *. rewrite Hu, Hg.
  rewrite (Hr n Hl'). reflexivity.
Qed.

Fixpoint regex_of (l : list field) (ks : list kind) (end_ : pystr) : pystr :=
  match l, ks with
  | x :: l', k :: ks' => f_sep x ++ (t_prefix (f_tok x) ++ group_re (t_name (f_tok x)) k ++ t_suffix (f_tok x)) ++ regex_of l' ks' end_
  | _, _ => end_
  end.
Fixpoint items_of (l : list field) (ks : list kind) (end_ : pystr) : list item :=
  match l, ks with
  | x :: l', k :: ks' => map lit (f_sep x ++ t_prefix (f_tok x)) ++ IGroup (t_name (f_tok x)) k :: map lit (t_suffix (f_tok x)) ++ items_of l' ks' end_
  | _, _ => map lit end_
  end.
Definition kinds (l : list field) (ks : list kind) : Prop := Forall2 (fun x k => kind_of (t_dtype (f_tok x)) = Ok k) l ks.
Lemma regex_ok l ks end_ : kinds l ks ->
  construct_regex (map f_tok l) (map f_sep l ++ [end_]) = Ok (regex_of l ks end_).
Proof.
  unfold construct_regex. intros H.
  assert (G : exists ps, rmapl pattern_of (map f_tok l) = Ok ps /\ interleave ps (map f_sep l ++ [end_]) ++ end_ = regex_of l ks end_).
  { induction H as [|x k l ks Hk H IH].
    - exists []. split; reflexivity.
    - destruct IH as (ps & E1 & E2). eexists. cbn [map rmapl]. unfold pattern_of at 1. rewrite Hk. cbn [rbind]. rewrite E1. cbn [rmap rbind].
      split; [reflexivity|]. cbn [app interleave regex_of]. rewrite <- E2, <- !app_assoc. reflexivity. }
  destruct G as (ps & E1 & E2). rewrite E1. cbn [rbind]. f_equal. rewrite last_last. exact E2.
Qed.
Lemma compile_regex l ks end_ : kinds l ks -> Forall field_ok l -> literal end_ -> compiles (regex_of l ks end_) (items_of l ks end_).
Proof.
  intros H. induction H as [|x k l ks Hk H IH]; intros Hl He; cbn [regex_of items_of].
  - rewrite <- (app_nil_r end_), <- (app_nil_r (map lit (end_ ++ []))). rewrite <- (app_nil_r end_) at 2. rewrite !app_nil_r.
    rewrite <- (app_nil_r end_) at 1. rewrite <- (app_nil_r (map lit end_)). apply compiles_lit; [exact He|exact compiles_nil].
  - apply Forall_cons_iff in Hl. destruct Hl as [(P1 & P2 & P3 & P4 & P5 & P6) Hl].
    rewrite map_app, <- !app_assoc. apply compiles_lit; [exact P2|]. apply compiles_lit; [exact P4|].
    apply compiles_group. { intros Hi. apply (tok_name _ P3 62 Hi). right. left. reflexivity. }
    apply compiles_lit; [exact P5|]. apply IH; assumption.
Qed.

(** *** Matching *)
Lemma rematch_lit p : forall its s, rematch (map lit p ++ its) (p ++ s) = rematch its s.
Proof.
  induction p as [|c p IH]; intros its s; [reflexivity|]. cbn [map app]. unfold lit at 1. destruct (Z.eqb_spec c 46) as [->|N]; cbn [rematch].
  - apply IH.
  - rewrite Z.eqb_refl. apply IH.
Qed.
Lemma span_app p v rest : forallb p v = true -> (forall c r, rest = c :: r -> p c = false) -> span p (v ++ rest) = (v, rest).
Proof.
  intros Hv Hr. induction v as [|c v IH]; cbn [app].
  - destruct rest as [|c r]; [reflexivity|]. cbn [span]. rewrite (Hr c r eq_refl). reflexivity.
  - cbn [forallb] in Hv. apply andb_prop in Hv. destruct Hv as [H1 H2]. cbn [span]. rewrite H1, IH by exact H2. reflexivity.
Qed.
Lemma runs_first p v rest : v <> [] -> forallb p v = true -> (forall c r, rest = c :: r -> p c = false) ->
  exists more, runs p (v ++ rest) = (v, rest) :: more.
Proof.
  intros Hne Hv Hr. unfold runs. rewrite (span_app p v rest Hv Hr). cbn [fst]. destruct v as [|c v]; [contradiction|]. cbn [length seq map].
  eexists. f_equal. rewrite Nat.sub_0_r. change (S (length v)) with (length (c :: v)). f_equal.
  - rewrite firstn_app, firstn_all, Nat.sub_diag. cbn [firstn]. apply app_nil_r.
  - rewrite skipn_app, skipn_all, Nat.sub_diag. reflexivity.
Qed.
Lemma runs_none p rest : (forall c r, rest = c :: r -> p c = false) -> runs p rest = [].
Proof. intros H. unfold runs. pose proof (span_app p [] rest eq_refl H) as E. cbn [app] in E. rewrite E. reflexivity. Qed.
Lemma digit_ok c : 48 <= c <= 57 -> is_digit c = true.
Proof. intros H. unfold is_digit. destruct (Z.leb_spec 48 c); [|lia]. destruct (Z.leb_spec c 57); [reflexivity|lia]. Qed.
Lemma digits_forallb d : digits d -> forallb is_digit d = true.
Proof. intros [_ H]. apply forallb_forall. rewrite Forall_forall in H. intros c Hc. apply digit_ok. apply H. exact Hc. Qed.
Lemma not_digit_head rest : ~ starts_with_digit rest -> forall c r, rest = c :: r -> is_digit c = false.
Proof.
  intros H c r E. destruct (is_digit c) eqn:Ed; [|reflexivity]. exfalso. apply H. exists c, r. split; [exact E|].
  unfold is_digit in Ed. apply andb_prop in Ed. destruct Ed as [E1 E2]. apply Z.leb_le in E1. apply Z.leb_le in E2. lia.
Qed.
Lemma first_some_seq {B} (f : nat -> option B) y : forall n a j, (j < n)%nat -> (forall i, (i < j)%nat -> f (a + i)%nat = None) -> f (a + j)%nat = Some y ->
  first_some f (seq a n) = Some y.
Proof.
  induction n as [|n IH]; intros a j Hj Hn Hs; [lia|]. cbn [seq first_some]. destruct j as [|j].
  - rewrite Nat.add_0_r in Hs. rewrite Hs. reflexivity.
  - pose proof (Hn 0%nat ltac:(lia)) as H0. rewrite Nat.add_0_r in H0. rewrite H0. apply IH with (j := j); [lia| |].
    + intros i Hi. rewrite Nat.add_succ_comm. apply Hn. lia.
    + rewrite Nat.add_succ_comm. exact Hs.
Qed.
Lemma first_some_map {A B C} (g : A -> B) (f : B -> option C) l : first_some f (map g l) = first_some (fun x => f (g x)) l.
Proof. induction l as [|x l IH]; [reflexivity|]. cbn [map first_some]. destruct (f (g x)); [reflexivity|exact IH]. Qed.
Lemma span_length_ge p v : forall rest, forallb p v = true -> (length v <= length (fst (span p (v ++ rest))))%nat.
Proof.
  induction v as [|c v IH]; intros rest Hv; cbn [length]; [lia|]. cbn [forallb] in Hv. apply andb_prop in Hv. destruct Hv as [H1 H2].
  cbn [app span]. rewrite H1. specialize (IH rest H2). destruct (span p (v ++ rest)). cbn [fst length] in *. lia.
Qed.
Lemma span_length_le p s : (length (fst (span p s)) <= length s)%nat.
Proof. induction s as [|c s IH]; cbn [span]; [cbn; lia|]. destruct (p c); [|cbn; lia]. destruct (span p s). cbn [fst length] in *. lia. Qed.

Lemma first_some_cons {A B} (f : A -> option B) x y l : f x = Some y -> first_some f (x :: l) = Some y.
Proof. intros H. cbn [first_some]. rewrite H. reflexivity. Qed.
Lemma match_group x k v its rest lits l2 :
  encodes (t_dtype x) v k -> delimited (t_dtype x) v lits rest -> forall kd, kind_of (t_dtype x) = Ok kd ->
  its = map lit lits ++ l2 -> forall g, rematch its rest = Some g ->
  rematch (IGroup (t_name x) kd :: its) (v ++ rest) = Some ((t_name x, v) :: g).
Proof.
  intros He Hd kd Hk Hi g Hg. cbn [rematch]. destruct x as [ts nm dt pf sf]. cbn [t_dtype t_name] in *.
  set (f := fun p : pystr * pystr => option_map (cons (nm, fst p)) (rematch its (snd p))).
  assert (F : f (v, rest) = Some ((nm, v) :: g)) by (unfold f; cbn [fst snd]; rewrite Hg; reflexivity).
  destruct He as [d z Hd1 Hd2 Hd3|d Hd1|a c b Ha Hb Hc|s Hs1 Hs2]; destruct Hd as (D1 & D2 & D3).
  - assert (Ek : kd = KInt) by (vm_compute in Hk; congruence). subst kd. specialize (D1 eq_refl).
    destruct (runs_first is_digit d rest (proj1 Hd1) (digits_forallb d Hd1) (not_digit_head rest D1)) as [more E].
    cbn [ways]. rewrite E. apply first_some_cons. exact F.
  - assert (Ek : kd = KFloat) by (vm_compute in Hk; congruence). subst kd. destruct (D2 eq_refl) as [D4 D5].
    destruct (runs_first is_digit d rest (proj1 Hd1) (digits_forallb d Hd1) (not_digit_head rest D4)) as [more E].
    cbn [ways]. rewrite E. cbn [flat_map snd]. destruct rest as [|c r]; cbn [app]; [apply first_some_cons; exact F|].
    destruct (is_sep c) eqn:Es.
    + assert (Hr : runs is_digit r = []).
      { apply runs_none. apply not_digit_head. apply (D5 Hd1 c r eq_refl). unfold is_sep in Es. apply orb_prop in Es.
        destruct Es as [Es|Es]; apply Z.eqb_eq in Es; auto. }
      rewrite Hr. cbn [map app]. apply first_some_cons. exact F.
    + cbn [app]. apply first_some_cons. exact F.
  - assert (Ek : kd = KFloat) by (vm_compute in Hk; congruence). subst kd. destruct (D2 eq_refl) as [D4 _].
    assert (Es : is_sep c = true) by (destruct Hc as [-> | ->]; reflexivity).
    assert (Nc : is_digit c = false) by (destruct Hc as [-> | ->]; reflexivity).
    rewrite <- app_assoc. cbn [app].
    destruct (runs_first is_digit a (c :: b ++ rest) (proj1 Ha) (digits_forallb a Ha)) as [more E]; [intros c0 r0 E0; congruence|].
    destruct (runs_first is_digit b rest (proj1 Hb) (digits_forallb b Hb) (not_digit_head rest D4)) as [more2 E2].
    cbn [ways]. rewrite E. cbn [flat_map snd fst]. rewrite Es, E2. cbn [map app fst snd]. apply first_some_cons. exact F.
  - assert (Ek : kd = KStr) by (vm_compute in Hk; congruence). subst kd. destruct (D3 eq_refl) as (c & lit' & -> & Nc & Hc).
    cbn [ways]. unfold runs. set (n := length (fst (span (fun c => negb (c =? 10)) (s ++ rest)))).
    assert (Hs : forallb (fun c => negb (c =? 10)) s = true).
    { apply forallb_forall. intros y Hy. destruct (Z.eqb_spec y 10) as [->|]; [contradiction|reflexivity]. }
    pose proof (span_length_ge _ s rest Hs) as L1. pose proof (span_length_le (fun c => negb (c =? 10)) (s ++ rest)) as L2. fold n in L1, L2.
    assert (Ls : (0 < length s)%nat) by (destruct s; [contradiction|cbn; lia]). rewrite app_length in L2.
    rewrite first_some_map. apply first_some_seq with (j := (n - length s)%nat); [lia| |].
    + intros i Hii. change (option_map (cons (nm, firstn (n - i) (s ++ rest))) (rematch its (skipn (n - i) (s ++ rest))) = None).
      rewrite skipn_app, skipn_all2 by lia. cbn [app].
      assert (Hm : rematch its (skipn (n - i - length s) rest) = None).
      { subst its. cbn [map app]. unfold lit at 1. destruct (Z.eqb_spec c 46); [contradiction|]. cbn [rematch].
        destruct (skipn (n - i - length s) rest) as [|y q] eqn:Ey; [reflexivity|]. destruct (Z.eqb_spec y c) as [->|]; [|reflexivity].
        exfalso. apply Hc. destruct rest as [|r0 rest]; [rewrite skipn_nil in Ey; discriminate|]. cbn [tl].
        destruct (n - i - length s)%nat as [|m] eqn:Em; [lia|]. cbn [skipn] in Ey.
        rewrite <- (firstn_skipn m rest), Ey. apply in_or_app. right. left. reflexivity. }
      rewrite Hm. reflexivity.
    + cbn [Nat.add]. replace (n - (n - length s))%nat with (length s) by lia.
      rewrite firstn_app, firstn_all, Nat.sub_diag, skipn_app, skipn_all, Nat.sub_diag. cbn [firstn skipn app]. rewrite app_nil_r. exact F.
Qed.
Lemma items_next l ks end_ : kinds l ks -> exists more, items_of l ks end_ = map lit (next_literal l end_) ++ more.
Proof.
  intros H. destruct H as [|x k l ks Hk H]; cbn [items_of next_literal].
  - exists []. rewrite app_nil_r. reflexivity.
  - eexists. reflexivity.
Qed.
Lemma rematch_all l ks end_ tail : forall vs, kinds l ks -> Forall2 (fun x v => encodes (t_dtype (f_tok x)) (f_text x) v) l vs -> decodable l end_ tail ->
  rematch (items_of l ks end_) (filename_of l end_ tail) = Some (map (fun x => (t_name (f_tok x), f_text x)) l).
Proof.
  intros vs H. revert vs. induction H as [|x k l ks Hk H IH]; intros vs Hv Hd; cbn [items_of filename_of map].
  - rewrite <- (app_nil_r (map lit end_)), rematch_lit. reflexivity.
  - inversion Hv as [|x0 v l0 vs' He Hv']; subst. destruct Hd as [Hd1 Hd2].
    rewrite app_assoc, rematch_lit. destruct (items_next l ks end_ H) as [more Em].
    eapply match_group; [exact He|exact Hd1|exact Hk| |].
    + rewrite Em, map_app, <- app_assoc. reflexivity.
    + rewrite rematch_lit. exact (IH vs' Hv' Hd2).
Qed.
Lemma distinct_ok l : NoDup l -> distinct l = true.
Proof.
  induction 1 as [|x l Hx H IH]; [reflexivity|]. cbn [distinct]. rewrite IH, andb_true_r. apply negb_true_iff.
  destruct (existsb (zs_eqb x) l) eqn:E; [|reflexivity]. exfalso. apply Hx. apply existsb_exists in E. destruct E as (y & Hy & E). apply zs_eqb_eq in E. subst y. exact Hy.
Qed.
Lemma find_name (l : list field) : NoDup (map (fun x => t_name (f_tok x)) l) -> forall x, In x l ->
  find (fun p => zs_eqb (fst p) (t_name (f_tok x))) (map (fun x => (t_name (f_tok x), f_text x)) l) = Some (t_name (f_tok x), f_text x).
Proof.
  induction l as [|y l IH]; intros Hd x Hx; [destruct Hx|]. cbn [map find fst]. apply NoDup_cons_iff in Hd. destruct Hd as [Hy Hd].
  destruct (zs_eqb (t_name (f_tok y)) (t_name (f_tok x))) eqn:E.
  - apply zs_eqb_eq in E. destruct Hx as [->|Hx]; [reflexivity|]. exfalso. apply Hy. rewrite E. apply in_map_iff. exists x. split; [reflexivity|exact Hx].
  - destruct Hx as [->|Hx]; [rewrite zs_eqb_refl in E; discriminate|]. apply IH; assumption.
Qed.
Lemma map_id_in {A} (f : A -> A) l : (forall x, In x l -> f x = x) -> map f l = l.
Proof. intros H. induction l as [|x l IH]; [reflexivity|]. cbn [map]. rewrite H by (left; reflexivity). f_equal. apply IH. intros; apply H; right; assumption. Qed.
Lemma digits_nocomma d : digits d -> map (fun c => if c =? 44 then 46 else c) d = d.
Proof. intros [_ H]. apply map_id_in. intros c Hc. rewrite Forall_forall in H. specialize (H c Hc). destruct (Z.eqb_spec c 44); [lia|reflexivity]. Qed.
Lemma convert_ok dt k text v : encodes dt text v -> kind_of dt = Ok k -> convert_cell k (Some text) = Ok v.
Proof.
  intros [d z Hd1 Hd2 Hd3|d Hd1|a c b Ha Hb Hc|s Hs1 Hs2] Hk; vm_compute in Hk; assert (Ek := Hk); injection Ek as <-; cbn [convert_cell].
  - unfold int_parse. rewrite digits_forallb by exact Hd1. destruct d as [|c d]; [destruct Hd1 as [N _]; contradiction|]. cbn [zs_eqb negb andb rbind].
    rewrite Hd2. destruct (Z.ltb_spec z (2 ^ 63)); [reflexivity|lia].
  - rewrite digits_nocomma by exact Hd1. reflexivity.
  - rewrite map_app. cbn [map]. rewrite !digits_nocomma by assumption. destruct Hc as [-> | ->]; reflexivity.
  - reflexivity.
Qed.
Lemma encodes_kind dt text v : encodes dt text v -> exists k, kind_of dt = Ok k.
Proof. intros [ | | | ]; eexists; vm_compute; reflexivity. Qed.

(** *** C59: the values come back *)
Theorem C59_roundtrip (l : list field) (end_ tail : pystr) (vs : list cellv) :
  l <> [] -> Forall field_ok l -> plain end_ -> literal end_ ->
  NoDup (map (fun x => t_name (f_tok x)) l) ->
  Forall2 (fun x v => encodes (t_dtype (f_tok x)) (f_text x) v) l vs ->
  decodable l end_ tail ->
  extract (template_of (map fst l) end_) (filename_of l end_ tail) = Some (Ok (combine (map (fun x => t_name (f_tok x)) l) vs)).
Proof.
  intros Hne Hl He Hle Hn Hv Hd. unfold extract.
  assert (P : parse_template (template_of (map fst l) end_) = Ok (map f_tok l, map f_sep l ++ [end_])).
  { rewrite C58_parse; [| |exact He].
    - rewrite !map_map. reflexivity.
    - rewrite Forall_map. eapply Forall_impl; [|exact Hl]. intros x (H1 & _ & H3 & _). split; assumption. }
  rewrite P.
  assert (Hk : exists ks, kinds l ks).
  { clear -Hv. induction Hv as [|x v l vs H Hv (ks & IH)]; [exists []; constructor|]. destruct (encodes_kind _ _ _ H) as [k E]. exists (k :: ks). constructor; assumption. }
  destruct Hk as [ks Hk]. rewrite (regex_ok l ks end_ Hk). rewrite (compile_regex l ks end_ Hk Hl Hle) by lia.
  rewrite map_map.
  assert (Hid : forallb identifier (map (fun x => t_name (f_tok x)) l) = true).
  { apply forallb_forall. intros nm Hnm. apply in_map_iff in Hnm. destruct Hnm as (x & <- & Hx). rewrite Forall_forall in Hl. apply (Hl x Hx). }
  rewrite Hid, (distinct_ok _ Hn). cbn [andb negb]. rewrite map_length. destruct l as [|x0 l0]; [contradiction|]. cbn [length Nat.eqb]. set (l := x0 :: l0) in *.
  assert (Hr : research (items_of l ks end_) (filename_of l end_ tail) = Some (map (fun x => (t_name (f_tok x), f_text x)) l)).
  { pose proof (rematch_all l ks end_ tail vs Hk Hv Hd) as R. destruct (filename_of l end_ tail); cbn [research]; rewrite R; reflexivity. }
  rewrite Hr. f_equal. cbn [group_text].
  assert (G : forall l1 vs1, (forall x, In x l1 -> In x l) -> Forall2 (fun x v => encodes (t_dtype (f_tok x)) (f_text x) v) l1 vs1 ->
    rmapl (fun t : token => rbind (kind_of (t_dtype t)) (fun k => rmap (pair (t_name t)) (convert_cell k (option_map snd
      (find (fun p => zs_eqb (fst p) (t_name t)) (map (fun x => (t_name (f_tok x), f_text x)) l)))))) (map f_tok l1) =
    Ok (combine (map (fun x => t_name (f_tok x)) l1) vs1)).
  { induction l1 as [|x l1 IH]; intros vs1 Hin H1; inversion H1 as [|x1 v1 l2 vs2 E1 E2]; subst; [reflexivity|].
    cbn [map rmapl combine]. destruct (encodes_kind _ _ _ E1) as [k Ek]. rewrite Ek. cbn [rbind].
    rewrite (find_name l Hn x (Hin x (or_introl eq_refl))). cbn [option_map snd]. rewrite (convert_ok _ _ _ _ E1 Ek). cbn [rmap rbind].
    rewrite (IH vs2 (fun y Hy => Hin y (or_intror Hy)) E2). reflexivity. }
  apply G; [auto|exact Hv].
Qed.
(** every integer below 2^63 can be written *)
Theorem C59_integers n : 0 <= n < 2 ^ 63 -> encodes (str "int") (dec n) (CInt n).
Proof.
  intros Hn. destruct (dec_spec n ltac:(lia)) as (E & Hf & _). unfold int_parse in E.
  destruct (negb (zs_eqb (dec n) []) && forallb is_digit (dec n)) eqn:Eb; [|discriminate]. assert (dec_value (dec n) = n) by congruence.
  apply enc_int; [|assumption|lia]. split; [|exact Hf]. intros E0. rewrite E0 in Eb. discriminate.
Qed.
(** the documented example: P90_N10_F1.21_FREP10kHz.vk4 *)
Definition ex_tok s n d p q := mkToken (str s) (str n) (str d) (str p) (str q).
Definition ex_fields : list field :=
  [([], ex_tok "power|float|P" "power" "float" "P" "", str "90");
   (str "_", ex_tok "pulses|int|N" "pulses" "int" "N" "", str "10");
   (str "_", ex_tok "fluence|float|F" "fluence" "float" "F" "", str "1.21");
   (str "_", ex_tok "frequency|float|FREP|kHz" "frequency" "float" "FREP" "kHz", str "10")].
Theorem C59_example :
  template_of (map fst ex_fields) [] = str "<power|float|P>_<pulses|int|N>_<fluence|float|F>_<frequency|float|FREP|kHz>" /\
  filename_of ex_fields [] (str ".vk4") = str "P90_N10_F1.21_FREP10kHz.vk4" /\
  Forall field_ok ex_fields /\ decodable ex_fields [] (str ".vk4") /\
  Forall2 (fun x v => encodes (t_dtype (f_tok x)) (f_text x) v) ex_fields [CFloat (str "90"); CInt 10; CFloat (str "1.21"); CFloat (str "10")].
Proof.
  split; [reflexivity|]. split; [reflexivity|].
  assert (NI : forall cs s, forallb (fun c => negb (existsb (Z.eqb c) cs)) s = true -> has_no cs s).
  { intros cs s H c Hc Hi. rewrite forallb_forall in H. specialize (H c Hc). apply negb_true_iff in H.
    assert (existsb (Z.eqb c) cs = true) by (apply existsb_exists; exists c; split; [exact Hi|apply Z.eqb_refl]). congruence. }
  assert (LI : forall s, forallb (fun c => negb (special c)) s = true -> literal s).
  { intros s H c Hc. rewrite forallb_forall in H. apply negb_true_iff. apply H. exact Hc. }
  assert (DG : forall s, negb (zs_eqb s []) && forallb is_digit s = true -> digits s).
  { intros s H. apply andb_prop in H. destruct H as [H1 H2]. split; [intros ->; discriminate|]. apply Forall_forall. intros c Hc.
    rewrite forallb_forall in H2. specialize (H2 c Hc). unfold is_digit in H2. apply andb_prop in H2. destruct H2 as [A B]. apply Z.leb_le in A. apply Z.leb_le in B. lia. }
  assert (SD : forall s, match s with [] => true | c :: _ => negb (is_digit c) end = true -> ~ starts_with_digit s).
  { intros s H (c & r & -> & Hc). rewrite (digit_ok c Hc) in H. discriminate. }
  split; [|split].
  - repeat apply Forall_cons; try apply Forall_nil; unfold field_ok; (split; [apply NI; reflexivity|]); (split; [apply LI; reflexivity|]);
      (split; [|split; [apply LI; reflexivity|split; [apply LI; reflexivity|reflexivity]]]); constructor; try (apply NI; reflexivity); unfold spells;
      cbn [ex_tok f_tok fst snd t_str t_name t_dtype t_prefix t_suffix].
    + right. left. split; reflexivity.
    + right. left. split; reflexivity.
    + right. left. split; reflexivity.
    + right. right. reflexivity.
  - unfold ex_fields. cbn [decodable]. repeat match goal with |- _ /\ _ => split end; try exact I;
      unfold delimited; (split; [|split]); try (intros E; vm_compute in E; discriminate E); intros _;
      try (apply SD; reflexivity); (split; [apply SD; reflexivity|]).
    + intros _ c r E. vm_compute in E. assert (c = 95) by congruence. subst c. intros [E1|E1]; discriminate.
    + intros [_ E]. exfalso. rewrite Forall_forall in E. specialize (E 46). vm_compute in E. destruct E as [E _]; [right; left; reflexivity|]. apply E. reflexivity.
    + intros _ c r E. vm_compute in E. assert (c = 107) by congruence. subst c. intros [E1|E1]; discriminate.
  - apply Forall2_cons; [apply enc_float; apply DG; reflexivity|].
    apply Forall2_cons; [apply enc_int; [apply DG; reflexivity|reflexivity|reflexivity]|].
    apply Forall2_cons; [apply (enc_decimal (str "1") 46 (str "21")); [apply DG; reflexivity|apply DG; reflexivity|left; reflexivity]|].
    apply Forall2_cons; [apply enc_float; apply DG; reflexivity|]. apply Forall2_nil.
Qed.
(** A '.' in a separator is not literal: another name matches as well. *)
Theorem C59_dot_refuted :
  extract (str "<a|int>.<b|int>") (str "123") = Some (Ok [(str "a", CInt 1); (str "b", CInt 3)]).
Proof. vm_compute. reflexivity. Qed.
(** Beyond 64 bits the integer column cannot be built; a name that does not match is a ValueError for int columns. *)
Theorem C59_overflow_refuted :
  extract (str "<a|int>") (str "9223372036854775808") = Some (Err OverflowError) /\
  extract (str "N<a|int>") (str "x.sur") = Some (Err ValueError) /\ extract (str "N<a|float>") (str "x.sur") = Some (Ok [(str "a", CNaN)]).
Proof. vm_compute. auto. Qed.
(** str values followed by a separator that occurs again are cut at the last occurrence *)
Theorem C59_str_refuted :
  extract (str "<a|str>_<b|str>") (str "x_y_z") = Some (Ok [(str "a", CStr (str "x_y")); (str "b", CStr (str "z"))]).
Proof. vm_compute. reflexivity. Qed.
