From Coq Require Import String List Bool ZArith Lia.
From Verif Require Import Base ModelCache SpecCache ProofCache ModelApi.
Import ListNotations.
Open Scope string_scope.

Section ApiProofs.
Variables (H T V A : Type).
Variable missing : H -> bool.
Variable num : string -> obs H T -> call A -> list V -> res V.
Variable arg : string -> call A -> A.
Variable flag : string -> call A -> bool.
Variable oflag : string -> obs H T -> call A -> bool.
Variable v_fft : A.
Notation stab := (surface_table H T V A missing num arg flag oflag v_fft).
Notation ptab := (profile_table H T V A missing num arg).
Notation smeth := (surface_methods H T V A missing num arg flag oflag v_fft).
Notation pmeth := (profile_methods H T V A missing num arg).

(** Call depth: every method only calls methods of smaller rank. *)
Definition rank (n : string) : nat :=
  if n =? "aspect_ratio" then 5 else if n =? "depth" then 4 else if n =? "orientation" then 3
  else if n =? "_orientation_refined" then 2
  else if n =? "homogeneity" then 3 else if n =? "cavity_volume" then 3 else if n =? "stepheight" then 2
  else if n =? "Smrk1" then 2 else if n =? "Smrk2" then 2 else if n =? "Sxp" then 2
  else if n =? "Rmrk1" then 2 else if n =? "Rmrk2" then 2 else if n =? "Rxp" then 2
  else if (n =? afc) || (n =? acf) || (n =? ft) || (n =? "height_parameters") || (n =? "_stepheight_get_mask")
       || (n =? "projected_area") || (n =? "surface_area") || (n =? "Rq") then 0
  else 1.

Inductive below {X} (r : nat) : prog H T V A X -> Prop :=
| below_ret x : below r (Ret x)
| below_raise e : below r (Raise e)
| below_look k : (forall o, below r (k o)) -> below r (Look k)
| below_call c k : rank (c_name c) < r -> (forall v, below r (k v)) -> below r (Call c k).

Lemma run_plain_total {X} r o h (p : prog H T V A X) :
  below r p -> (forall c, rank (c_name c) < r -> h c <> None) -> run_plain H T V A o h p <> None.
Proof.
  intros Hb Hh. induction Hb as [x|e|k Hk IH|c k Hr Hk IH]; cbn; try discriminate; auto.
  specialize (Hh c Hr). destruct (h c) as [[v|e]|]; try congruence; auto.
Qed.

Definition ranked (tbl : list (string * (call A -> meth H T V A))) : Prop :=
  forall n f c, assoc n tbl = Some f -> below (rank n) (m_body (f c)).

Lemma call_plain_total tbl : ranked tbl -> forall n o c, rank (c_name c) < n ->
  call_plain H T V A missing (methods_of H T V A tbl) o n c <> None.
Proof.
  intros Hr. induction n as [|n IH]; intros o c Hn; [lia|].
  cbn [call_plain]. unfold methods_of at 1.
  destruct (assoc (c_name c) tbl) as [f|] eqn:E; [|discriminate].
  rewrite decos_plain_spec. destruct (_ && _); [discriminate|].
  eapply run_plain_total; [apply (Hr _ _ _ E)|].
  intros c' Hc'. apply IH. lia.
Qed.

Lemma below_fin r name c vs : below r (fin H T V A num name c vs).
Proof. apply below_look; intros o. destruct (num name o c vs); constructor. Qed.
Lemma below_leaf_checked r name c : below r (leaf_checked H T V A missing num name c).
Proof. apply below_look; intros o. destruct (missing (o_data o)); [constructor|apply below_fin]. Qed.

Ltac solve_below :=
  repeat first
    [ apply below_fin | apply below_leaf_checked | apply below_ret | apply below_raise
    | apply below_call; [vm_compute; lia|intro]
    | apply below_look; intro
    | match goal with |- below _ (if ?b then _ else _) => destruct b end ].

Ltac split_assoc :=
  match goal with
  | E : (if String.eqb ?n ?k then _ else _) = Some _ |- _ =>
      let b := fresh "b" in destruct (String.eqb n k) eqn:b;
      [apply String.eqb_eq in b; subst n; injection E as <-|clear b]
  end.

Lemma surface_ranked : ranked stab.
Proof.
  intros n f c E. unfold surface_table, base_table in E. cbn [app assoc] in E.
  repeat (split_assoc; [unfold m, leaf, via, self0; cbn [m_body]; solve_below|]).
  discriminate E.
Qed.
Lemma profile_ranked : ranked ptab.
Proof.
  intros n f c E. unfold profile_table, base_table in E. cbn [app assoc] in E.
  repeat (split_assoc; [unfold m, leaf, via, self0; cbn [m_body]; solve_below|]).
  discriminate E.
Qed.

Lemma rank_bound n : rank n < 6.
Proof. unfold rank. repeat match goal with |- context[if ?b then _ else _] => destruct b end; lia. Qed.

Lemma surface_depth o c : call_plain H T V A missing smeth o 6 c <> None.
Proof. apply call_plain_total; [apply surface_ranked|apply rank_bound]. Qed.
Lemma profile_depth o c : call_plain H T V A missing pmeth o 6 c <> None.
Proof. apply call_plain_total; [apply profile_ranked|apply rank_bound]. Qed.

(** Incomplete data: every method in the list raises ValueError. *)
Lemma surface_incomplete o c : missing (o_data o) = true -> In (c_name c) surface_complete ->
  call_plain H T V A missing smeth o 6 c = Some (Err ValueError).
Proof.
  intros Hm Hin. destruct c as [n args kw]. cbn [c_name] in Hin. unfold surface_complete, base_complete in Hin.
  cbn [app In] in Hin. cbn [call_plain].
  repeat (destruct Hin as [<-|Hin]; [
    cbn; rewrite ?Hm;
    repeat (match goal with |- context[if flag ?a ?b then _ else _] => destruct (flag a b) end;
            cbn; rewrite ?Hm); reflexivity |]).
  destruct Hin.
Qed.
Lemma profile_incomplete o c : missing (o_data o) = true -> In (c_name c) profile_complete ->
  call_plain H T V A missing pmeth o 6 c = Some (Err ValueError).
Proof.
  intros Hm Hin. destruct c as [n args kw]. cbn [c_name] in Hin. unfold profile_complete, base_complete in Hin.
  cbn [app In] in Hin. cbn [call_plain].
  repeat (destruct Hin as [<-|Hin]; [
    cbn; rewrite ?Hm; reflexivity |]).
  destruct Hin.
Qed.
End ApiProofs.
