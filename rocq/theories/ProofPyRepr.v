From Coq Require Import String Ascii List Bool ZArith NArith Lia DecimalString DecimalZ DecimalFacts Decimal.
From Verif Require Import ModelPyRepr.
Import ListNotations.
Local Open Scope char_scope.

Lemma pyval_ind' (P : pyval -> Prop)
  (HN : P PNone) (HB : forall b, P (PBool b)) (HI : forall z, P (PInt z)) (HF : forall t, P (PFloat t))
  (HS : forall s, P (PStr s)) (HT : forall l, Forall P l -> P (PTuple l)) (HL : forall l, Forall P l -> P (PList l)) :
  forall v, P v.
Proof.
  fix IH 1. intros [| b | z | t | s | l | l];
    [exact HN|apply HB|apply HI|apply HF|apply HS| |].
  - apply HT. induction l; constructor; auto.
  - apply HL. induction l; constructor; auto.
Qed.

(** Characters that may follow a value inside a tuple/list. *)
Definition delim (s : list ascii) : Prop :=
  match s with [] => True | c :: _ => c = ","%char \/ c = ")"%char \/ c = "]"%char end.

Definition tokchar (c : ascii) : bool :=
  negb (Ascii.eqb c "," || Ascii.eqb c ")" || Ascii.eqb c "]" || Ascii.eqb c "(" || Ascii.eqb c "["
        || Ascii.eqb c squote || Ascii.eqb c dquote).

(** Every byte, by enumeration. *)
Definition all_ascii : list ascii := map ascii_of_nat (seq 0 256).
Lemma all_ascii_spec c : In c all_ascii.
Proof.
  unfold all_ascii. apply in_map_iff. exists (nat_of_ascii c). split.
  - apply ascii_nat_embedding.
  - apply in_seq. assert (H := nat_ascii_bounded c). lia.
Qed.
Lemma ascii_forall (P : ascii -> bool) : forallb P all_ascii = true -> forall c, P c = true.
Proof. intros H c. rewrite forallb_forall in H. apply H, all_ascii_spec. Qed.

Lemma float_tokchar c : float_char c = true -> tokchar c = true.
Proof.
  intros H. assert (X := ascii_forall (fun c => implb (float_char c) (tokchar c)) eq_refl c). cbn beta in X.
  rewrite H in X. exact X.
Qed.
Lemma int_tokchar c : int_char c = true -> tokchar c = true.
Proof.
  intros H. assert (X := ascii_forall (fun c => implb (int_char c) (tokchar c)) eq_refl c). cbn beta in X.
  rewrite H in X. exact X.
Qed.

Lemma tok_split t t' s s' :
  forallb tokchar t = true -> forallb tokchar t' = true -> delim s -> delim s' ->
  t ++ s = t' ++ s' -> t = t' /\ s = s'.
Proof.
  revert t'. induction t as [|c t IH]; intros [|c' t'] Ht Ht' Hs Hs' E; cbn in *.
  - auto.
  - subst s. cbn in Hs. apply andb_true_iff in Ht' as [Hc _].
    destruct Hs as [->|[->| ->]]; discriminate Hc.
  - subst s'. cbn in Hs'. apply andb_true_iff in Ht as [Hc _].
    destruct Hs' as [->|[->| ->]]; discriminate Hc.
  - injection E as -> E. apply andb_true_iff in Ht as [_ Ht]. apply andb_true_iff in Ht' as [_ Ht'].
    destruct (IH t' Ht Ht' Hs Hs' E) as [-> ->]. auto.
Qed.

(** *** integers *)
Lemma uint_chars_gen u : forallb int_char (chars (NilEmpty.string_of_uint u)) = true.
Proof. induction u; cbn; auto. Qed.
Lemma repr_int_chars z : forallb int_char (repr_int z) = true.
Proof.
  unfold repr_int. destruct (Z.to_int z) as [u|u]; cbn.
  - destruct u; cbn; try reflexivity; apply uint_chars_gen.
  - destruct u; cbn; try reflexivity; apply uint_chars_gen.
Qed.
Lemma repr_int_inj z z' : repr_int z = repr_int z' -> z = z'.
Proof.
  unfold repr_int, chars. intros E.
  apply (f_equal string_of_list_ascii) in E. rewrite !string_of_list_ascii_of_string in E.
  apply (f_equal NilZero.int_of_string) in E.
  rewrite !NilZero.isi in E.
  - injection E as E. apply (f_equal Z.of_int) in E. rewrite !DecimalZ.of_to in E. exact E.
  - intros X. destruct z'; cbn in X; try discriminate;
      injection X as X; apply (f_equal Pos.of_uint) in X; rewrite DecimalPos.Unsigned.of_to in X; discriminate.
  - intros X. destruct z'; cbn in X; try discriminate;
      injection X as X; apply (f_equal Pos.of_uint) in X; rewrite DecimalPos.Unsigned.of_to in X; discriminate.
  - intros X. destruct z; cbn in X; try discriminate;
      injection X as X; apply (f_equal Pos.of_uint) in X; rewrite DecimalPos.Unsigned.of_to in X; discriminate.
  - intros X. destruct z; cbn in X; try discriminate;
      injection X as X; apply (f_equal Pos.of_uint) in X; rewrite DecimalPos.Unsigned.of_to in X; discriminate.
Qed.
Lemma repr_int_nonempty z : repr_int z <> [].
Proof.
  unfold repr_int. destruct (Z.to_int z) as [u|u]; cbn; [|discriminate].
  destruct u; cbn; discriminate.
Qed.

(** *** strings: a scanner that inverts the escaping *)
Definition unhex (c : ascii) : N := let n := code c in if (n <? 58)%N then (n - 48)%N else (n - 87)%N.
Fixpoint scan (fuel : nat) (q : ascii) (s : list ascii) : option (list ascii * list ascii) :=
  match fuel with
  | O => None
  | S fuel =>
    match s with
    | [] => None
    | c :: s1 =>
      if Ascii.eqb c q then Some ([], s1)
      else if Ascii.eqb c "\" then
        match s1 with
        | [] => None
        | d :: s2 =>
          if Ascii.eqb d "x" then
            match s2 with
            | h1 :: h2 :: s3 =>
                match scan fuel q s3 with
                | Some (r, rest) => Some (ascii_of_N (unhex h1 * 16 + unhex h2) :: r, rest) | None => None end
            | _ => None
            end
          else
            let e := if Ascii.eqb d "n" then ascii_of_N 10 else if Ascii.eqb d "r" then ascii_of_N 13
                     else if Ascii.eqb d "t" then ascii_of_N 9 else d in
            match scan fuel q s2 with Some (r, rest) => Some (e :: r, rest) | None => None end
        end
      else match scan fuel q s1 with Some (r, rest) => Some (c :: r, rest) | None => None end
    end
  end.

Lemma scan_step fuel q c s : q = squote \/ q = dquote ->
  scan (S fuel) q (esc1 q c ++ s) =
  match scan fuel q s with Some (r, rest) => Some (c :: r, rest) | None => None end.
Proof.
  intros Hq.
  assert (Hall : forall f : list ascii -> option (list ascii * list ascii), True) by auto. clear Hall.
  destruct c as [b0 b1 b2 b3 b4 b5 b6 b7].
  destruct Hq as [-> | ->];
    destruct b0, b1, b2, b3, b4, b5, b6, b7; cbn; destruct (scan fuel _ s) as [[r rest]|]; reflexivity.
Qed.

Lemma scan_repr q s rest fuel : q = squote \/ q = dquote -> List.length s < fuel ->
  scan fuel q (flat_map (esc1 q) s ++ q :: rest) = Some (s, rest).
Proof.
  intros Hq. revert fuel. induction s as [|c s IH]; intros fuel Hf.
  - destruct fuel as [|fuel]; [lia|]. cbn. rewrite Ascii.eqb_refl. reflexivity.
  - destruct fuel as [|fuel]; [lia|]. cbn [flat_map]. rewrite <- app_assoc, scan_step by exact Hq.
    rewrite IH; [reflexivity|]. cbn in Hf. lia.
Qed.

Lemma quote_for_or s : quote_for s = squote \/ quote_for s = dquote.
Proof. unfold quote_for. destruct (_ && _); auto. Qed.

Lemma repr_str_split s s' r r' : repr_str s ++ r = repr_str s' ++ r' -> s = s' /\ r = r'.
Proof.
  unfold repr_str. intros E. cbn [app] in E. injection E as Eq E.
  rewrite <- !app_assoc in E. cbn [app] in E. rewrite <- Eq in E.
  set (q := quote_for s) in *. assert (Hq := quote_for_or s). fold q in Hq.
  set (n := S (Nat.max (List.length s) (List.length s'))).
  assert (X := scan_repr q s r n Hq ltac:(lia)).
  assert (Y := scan_repr q s' r' n Hq ltac:(lia)).
  change (flat_map (esc1 q) s ++ q :: r = flat_map (esc1 q) s' ++ q :: r') in E.
  rewrite E, Y in X. injection X as -> ->. auto.
Qed.

(** *** all values *)
Definition kind (v : pyval) : nat :=
  match v with PStr _ => 1 | PTuple _ => 2 | PList _ => 3 | _ => 0 end.

Lemma repr_tok v : kind v = 0 -> wf v = true -> forallb tokchar (repr v) = true.
Proof.
  destruct v as [|[|]|z|t|s|l|l]; cbn; try discriminate; try reflexivity; intros _ W.
  - apply forallb_forall. intros c Hc. apply int_tokchar.
    assert (X := repr_int_chars z). rewrite forallb_forall in X. auto.
  - unfold wf_float in W. apply andb_true_iff in W as [W _].
    apply forallb_forall. intros c Hc. apply float_tokchar. rewrite forallb_forall in W. auto.
Qed.

Lemma int_not_tok z (t : list ascii) : existsb (fun c => negb (int_char c)) t = true -> repr_int z <> t.
Proof.
  intros H E. assert (X := repr_int_chars z). rewrite E in X.
  apply existsb_exists in H as (c & Hin & Hc). rewrite forallb_forall in X. rewrite (X c Hin) in Hc. discriminate.
Qed.

Lemma float_not_lit (t : list ascii) : wf_float t = true ->
  t <> chars "None" /\ t <> chars "True" /\ t <> chars "False".
Proof.
  unfold wf_float. intros H. apply andb_true_iff in H as [H _].
  repeat split; intros ->; discriminate H.
Qed.

Lemma repr_tok_inj v v' : kind v = 0 -> kind v' = 0 -> wf v = true -> wf v' = true ->
  repr v = repr v' -> v = v'.
Proof.
  destruct v as [|[|]|z|t|s|l|l], v' as [|[|]|z'|t'|s'|l'|l']; cbn [kind wf];
    try discriminate; try reflexivity; intros _ _ W W' E; cbn [repr] in E;
    try (discriminate E);
    try (match goal with |- PInt _ = PInt _ => f_equal; apply repr_int_inj; exact E end);
    try (match goal with |- PFloat _ = PFloat _ => f_equal; exact E end);
    exfalso;
    try (match type of E with repr_int ?z = ?t => revert E; apply int_not_tok end);
    try (match type of E with ?t = repr_int ?z => symmetry in E; revert E; apply int_not_tok end);
    try reflexivity;
    try (match goal with W : wf_float ?t = true |- _ => destruct (float_not_lit t W) as (X1 & X2 & X3); congruence end);
    try (match goal with W : wf_float ?t = true |- _ => unfold wf_float in W; apply andb_true_iff in W as [_ W]; exact W end).
Qed.

Lemma repr_head v : wf v = true ->
  match kind v with
  | 1 => exists t, repr v = squote :: t \/ repr v = dquote :: t
  | 2 => exists t, repr v = "("%char :: t
  | 3 => exists t, repr v = "["%char :: t
  | _ => True
  end.
Proof.
  destruct v as [|[|]|z|t|s|l|l]; cbn; auto; intros _.
  - unfold repr_str. destruct (quote_for_or s) as [-> | ->]; eexists; eauto.
  - destruct l as [|x [|y l]]; eexists; reflexivity.
  - eexists; reflexivity.
Qed.

Definition USplit (v : pyval) : Prop := forall v' s s', wf v = true -> wf v' = true ->
  repr v ++ s = repr v' ++ s' -> delim s -> delim s' -> v = v' /\ s = s'.

Lemma first_tok t s c u : forallb tokchar t = true -> delim s -> t ++ s = c :: u ->
  tokchar c = true \/ c = ","%char \/ c = ")"%char \/ c = "]"%char.
Proof.
  destruct t as [|d t]; cbn.
  - intros _ Hs ->. auto.
  - intros Ht _ E. injection E as -> _. apply andb_true_iff in Ht as [Ht _]. auto.
Qed.

Lemma kind_determined v v' s s' : wf v = true -> wf v' = true -> delim s -> delim s' ->
  repr v ++ s = repr v' ++ s' -> kind v = kind v'.
Proof.
  intros W W' Hs Hs' E.
  assert (K : forall v, kind v <= 3) by (intros []; cbn; lia).
  assert (Hk := K v). assert (Hk' := K v').
  assert (A := repr_head v W). assert (A' := repr_head v' W').
  assert (B := repr_tok v). assert (B' := repr_tok v').
  destruct (kind v) as [|[|[|[|k]]]] eqn:Ek; [| | | |lia];
  destruct (kind v') as [|[|[|[|k']]]] eqn:Ek'; try lia; exfalso;
  repeat match goal with H : exists _, _ |- _ => destruct H end;
  repeat match goal with H : _ \/ _ |- _ => destruct H end;
  repeat match goal with H : repr _ = _ |- _ => rewrite H in E end;
  cbn [app] in E; try discriminate E;
  try (match goal with B : 0 = 0 -> wf ?v = true -> _ |- _ =>
     first [ eapply (first_tok _ _ _ _ (B eq_refl W) Hs) in E
           | symmetry in E; eapply (first_tok _ _ _ _ (B eq_refl W') Hs') in E ] end;
     destruct E as [E|[E|[E|E]]]; discriminate E).
Qed.

(** items of non-empty lists followed by a closing bracket *)
Lemma items_split close l : close = ")"%char \/ close = "]"%char ->
  Forall USplit l -> forallb wf l = true ->
  forall l' s s', forallb wf l' = true ->
  items repr l ++ close :: s = items repr l' ++ close :: s' -> l = l' /\ s = s'.
Proof.
  intros Hc.
  assert (Dc : forall s, delim (close :: s)) by (intros; destruct Hc as [-> | ->]; cbn; auto).
  assert (Hne : forall v, wf v = true -> forall t u, repr v ++ t = close :: u -> delim t -> False).
  { intros v W t u E Ht.
    assert (A := repr_head v W). assert (B := repr_tok v).
    assert (K : kind v <= 3) by (destruct v; cbn; lia).
    destruct (kind v) as [|[|[|[|k]]]] eqn:Ek; [| | | |lia].
    - destruct (repr v) as [|c r] eqn:Er.
      + destruct v as [|[|]|z|tk|st|l0|l0]; cbn in Er, Ek; try discriminate.
        * exact (repr_int_nonempty z Er).
        * subst tk. discriminate W.
      + cbn in E. injection E as -> _. specialize (B eq_refl W). cbn in B.
        apply andb_true_iff in B as [B _]. destruct Hc as [-> | ->]; discriminate B.
    - destruct A as [r [A|A]]; rewrite A in E; destruct Hc as [-> | ->]; discriminate E.
    - destruct A as [r A]; rewrite A in E; destruct Hc as [-> | ->]; discriminate E.
    - destruct A as [r A]; rewrite A in E; destruct Hc as [-> | ->]; discriminate E. }
  induction l as [|x l IH]; intros HU W l' s s' W' E.
  - destruct l' as [|y l']; cbn in E; [injection E as ->; auto|]. exfalso.
    cbn in W'. apply andb_true_iff in W' as [Wy _].
    destruct l' as [|z l']; cbn in E.
    + symmetry in E. eapply Hne; eauto.
    + rewrite <- !app_assoc in E. symmetry in E. eapply Hne; eauto. cbn; auto.
  - cbn in W. apply andb_true_iff in W as [Wx Wl].
    inversion HU as [|? ? Hx Hl]; subst.
    destruct l' as [|y l'].
    + exfalso. cbn in E. destruct l as [|z l].
      * eapply Hne; eauto.
      * rewrite <- !app_assoc in E. eapply Hne; eauto. cbn; auto.
    + cbn in W'. apply andb_true_iff in W' as [Wy Wl'].
      destruct l as [|x2 l], l' as [|y2 l'].
      * cbn in E. destruct (Hx y _ _ Wx Wy E (Dc _) (Dc _)) as [-> E']. injection E' as ->. auto.
      * exfalso. change (items repr (y :: y2 :: l')) with (repr y ++ [","; " "]%char ++ items repr (y2 :: l')) in E.
        change (items repr [x]) with (repr x) in E. rewrite <- !app_assoc in E. cbn [app] in E.
        destruct (Hx y _ _ Wx Wy E (Dc _) ltac:(cbn; auto)) as [_ E'].
        destruct Hc as [-> | ->]; discriminate E'.
      * exfalso. change (items repr (x :: x2 :: l)) with (repr x ++ [","; " "]%char ++ items repr (x2 :: l)) in E.
        change (items repr [y]) with (repr y) in E. rewrite <- !app_assoc in E. cbn [app] in E.
        destruct (Hx y _ _ Wx Wy E ltac:(cbn; auto) (Dc _)) as [_ E'].
        destruct Hc as [-> | ->]; discriminate E'.
      * change (items repr (x :: x2 :: l)) with (repr x ++ [","; " "]%char ++ items repr (x2 :: l)) in E.
        change (items repr (y :: y2 :: l')) with (repr y ++ [","; " "]%char ++ items repr (y2 :: l')) in E.
        rewrite <- !app_assoc in E. cbn [app] in E.
        destruct (Hx y _ _ Wx Wy E ltac:(cbn; auto) ltac:(cbn; auto)) as [-> E'].
        injection E' as E'.
        destruct (IH Hl Wl (y2 :: l') s s' Wl' E') as [E1 ->]. rewrite E1. auto.
Qed.

Lemma repr_tuple l : repr (PTuple l) = match l with
   | [x] => ["("] ++ repr x ++ [","; ")"] | _ => ["("] ++ items repr l ++ [")"] end%char.
Proof. destruct l as [|x [|y l]]; reflexivity. Qed.

Lemma cons_tail {X} (a : X) l l' : a :: l = a :: l' -> l = l'.
Proof. intros E; injection E; auto. Qed.

Lemma usplit_all v : USplit v.
Proof.
  induction v as [| b | z | t | s | l IH | l IH] using pyval_ind';
    intros v' r r' W W' E Hr Hr';
    assert (K := kind_determined _ _ _ _ W W' Hr Hr' E); cbn [kind] in K.
  1-4: match goal with |- ?x = _ /\ _ =>
         assert (B := repr_tok x eq_refl W); assert (B' := repr_tok v' (eq_sym K) W');
         destruct (tok_split _ _ _ _ B B' Hr Hr' E) as [E1 ->]; split; [|reflexivity];
         apply repr_tok_inj; auto end.
  - destruct v'; try discriminate K. cbn [repr] in E.
    destruct (repr_str_split _ _ _ _ E) as [-> ->]. auto.
  - destruct v' as [|[|]|z'|t'|s'|l'|l']; try discriminate K. rewrite !repr_tuple in E. cbn [wf] in W, W'.
    destruct l as [|x [|x2 l]], l' as [|y [|y2 l']];
      rewrite <- ?app_assoc in E; apply app_inv_head in E.
    + cbn in E. injection E as ->. auto.
    + exfalso. cbn in E. cbn in W'. apply andb_true_iff in W' as [Wy _].
      assert (X := items_split ")"%char [] (or_introl eq_refl) (Forall_nil _) eq_refl [y]).
      cbn in X.
      destruct (repr y) as [|c u] eqn:Ey.
      * cbn in E. discriminate E.
      * cbn in E. injection E as Ec _. subst c.
        assert (A := repr_head y Wy). assert (B := repr_tok y).
        assert (K' : kind y <= 3) by (destruct y; cbn; lia).
        destruct (kind y) as [|[|[|[|k]]]] eqn:Ek; [| | | |lia].
        -- specialize (B eq_refl Wy). rewrite Ey in B. discriminate B.
        -- destruct A as [t [A|A]]; rewrite Ey in A; discriminate A.
        -- destruct A as [t A]; rewrite Ey in A; discriminate A.
        -- destruct A as [t A]; rewrite Ey in A; discriminate A.
    + change (")"%char :: r) with (items repr [] ++ ")"%char :: r) in E.
      destruct (items_split ")"%char [] (or_introl eq_refl) (Forall_nil _) eq_refl (y :: y2 :: l') r r' W' E) as [E1 _].
      discriminate E1.
    + exfalso. cbn in W. apply andb_true_iff in W as [Wx _]. cbn in E.
      destruct (repr x) as [|c u] eqn:Ey.
      * cbn in E. discriminate E.
      * cbn in E. injection E as Ec _. subst c.
        assert (A := repr_head x Wx). assert (B := repr_tok x).
        assert (K' : kind x <= 3) by (destruct x; cbn; lia).
        destruct (kind x) as [|[|[|[|k]]]] eqn:Ek; [| | | |lia].
        -- specialize (B eq_refl Wx). rewrite Ey in B. discriminate B.
        -- destruct A as [t [A|A]]; rewrite Ey in A; discriminate A.
        -- destruct A as [t A]; rewrite Ey in A; discriminate A.
        -- destruct A as [t A]; rewrite Ey in A; discriminate A.
    + inversion IH as [|? ? Hx _]; subst. cbn in W, W'.
      apply andb_true_iff in W as [Wx _]. apply andb_true_iff in W' as [Wy _].
      destruct (Hx y _ _ Wx Wy E ltac:(cbn; auto) ltac:(cbn; auto)) as [-> E']. injection E' as ->. auto.
    + exfalso. inversion IH as [|? ? Hx _]; subst. cbn in W, W'.
      apply andb_true_iff in W as [Wx _]. apply andb_true_iff in W' as [Wy _].
      change (items repr (y :: y2 :: l')) with (repr y ++ [","; " "]%char ++ items repr (y2 :: l')) in E.
      rewrite <- !app_assoc in E.
      destruct (Hx y _ _ Wx Wy E ltac:(cbn; auto) ltac:(cbn; auto)) as [_ E']. discriminate E'.
    + change (")"%char :: r') with (items repr [] ++ ")"%char :: r') in E.
      destruct (items_split ")"%char (x :: x2 :: l) (or_introl eq_refl) IH W [] r r' eq_refl E) as [E1 _].
      discriminate E1.
    + exfalso. inversion IH as [|? ? Hx _]; subst. cbn in W, W'.
      apply andb_true_iff in W as [Wx _]. apply andb_true_iff in W' as [Wy _].
      change (items repr (x :: x2 :: l)) with (repr x ++ [","; " "]%char ++ items repr (x2 :: l)) in E.
      rewrite <- !app_assoc in E.
      destruct (Hx y _ _ Wx Wy E ltac:(cbn; auto) ltac:(cbn; auto)) as [_ E']. discriminate E'.
    + destruct (items_split ")"%char (x :: x2 :: l) (or_introl eq_refl) IH W (y :: y2 :: l') r r' W' E) as [E1 ->].
      rewrite E1. auto.
  - destruct v' as [|[|]|z'|t'|s'|l'|l']; try discriminate K. cbn [repr app] in E. cbn [wf] in W, W'.
    injection E as E. rewrite <- !app_assoc in E. cbn [app] in E.
    destruct (items_split "]"%char l (or_intror eq_refl) IH W l' r r' W' E) as [-> ->]. auto.
Qed.

Lemma repr_inj v v' : wf v = true -> wf v' = true -> repr v = repr v' -> v = v'.
Proof.
  intros W W' E. destruct (usplit_all v v' [] [] W W') as [-> _]; cbn; auto. rewrite !List.app_nil_r. exact E.
Qed.

Lemma str_of_list_inj l l' : string_of_list_ascii l = string_of_list_ascii l' -> l = l'.
Proof. intros E. apply (f_equal list_ascii_of_string) in E. now rewrite !list_ascii_of_string_of_list_ascii in E. Qed.
Lemma chars_inj s s' : chars s = chars s' -> s = s'.
Proof. unfold chars. intros E. apply (f_equal string_of_list_ascii) in E. now rewrite !string_of_list_ascii_of_string in E. Qed.

Lemma py_str_args_inj l l' : forallb wf l = true -> forallb wf l' = true -> py_str_args l = py_str_args l' -> l = l'.
Proof.
  intros W W' E. apply str_of_list_inj in E. apply repr_inj in E; [|exact W|exact W'].
  injection E as ->. reflexivity.
Qed.

Lemma py_str_kwargs_inj (l l' : list (string * pyval)) :
  forallb (fun kv => wf (snd kv)) l = true -> forallb (fun kv => wf (snd kv)) l' = true ->
  py_str_kwargs l = py_str_kwargs l' -> l = l'.
Proof.
  intros W W' E. apply str_of_list_inj in E. apply app_inv_head in E. apply app_inv_tail in E.
  apply repr_inj in E.
  - injection E as E. clear W W'. revert l' E. induction l as [|[k v] l IH]; intros [|[k' v'] l'] E; cbn in E; try discriminate.
    + reflexivity.
    + injection E as Ek Ev E. apply chars_inj in Ek. subst. f_equal. auto.
  - clear W' E. induction l as [|[k v] l IH]; cbn in *; auto. apply andb_true_iff in W as [-> W]. cbn. apply IH. exact W.
  - clear W E. induction l' as [|[k v] l' IH]; cbn in *; auto. apply andb_true_iff in W' as [-> W]. cbn. apply IH. exact W.
Qed.
