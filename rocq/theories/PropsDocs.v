(** C109: the documentation of a method of a Batch lacks exactly the parameters the method does not take. *)
From Coq Require Import String Ascii List Bool Arith Lia Permutation.
From Verif Require Import ModelDocs.
Import ListNotations.
Local Open Scope list_scope.

(** *** Specification *)
(** a text: lines, each with its line feed, and a last line without one *)
Definition text (lines : list (list ascii)) (last : list ascii) : list ascii := concat (map (fun l => l ++ [nl]) lines) ++ last.
Definition one_line (l : list ascii) : Prop := ~ In nl l.
(** a line that starts with four spaces or a tabulator and goes on *)
Definition indented (l : list ascii) : Prop := exists c t, l = spaces4 ++ c :: t \/ l = tab :: c :: t.
Definition flush_left (lines : list (list ascii)) : Prop := match lines with [] => True | l :: _ => ~ indented l end.
(** the entry of a parameter: its name, the rest of that line, and the indented lines below it *)
Record entry := { name : list ascii; declared : list ascii; description : list (list ascii) }.
Definition entry_lines (e : entry) : list (list ascii) := (name e ++ declared e) :: description e.
Definition doc (head : list (list ascii)) (entries : list entry) (tail : list (list ascii)) (last : list ascii) : list ascii :=
  text (head ++ concat (map entry_lines entries) ++ tail) last.
Definition identifier (p : list ascii) : Prop := one_line p /\ match p with [] => False | c :: _ => c <> " "%char /\ c <> tab end.
Record entry_ok (e : entry) : Prop := {
  ok_name : identifier (name e);
  ok_declared : one_line (declared e) /\ declared e <> [];
  ok_description : description e <> [] /\ Forall (fun l => one_line l /\ indented l) (description e) }.
(** nowhere in these lines is the word [p], with something behind it on the line, above an indented line *)
Definition quiet (p : list ascii) (lines : list (list ascii)) : Prop :=
  forall i l m a b, nth_error lines i = Some l -> nth_error lines (S i) = Some m -> l = a ++ p ++ b -> b <> [] -> ~ indented m.

(** *** The pattern *)
Arguments remove_parameter : simpl never.
Lemma after_prefix_spec p : forall s t, after_prefix p s = Some t <-> s = p ++ t.
Proof.
  induction p as [|a p IH]; intros s t; cbn; [split; congruence|]. destruct s as [|b s]; [split; discriminate|].
  destruct (Ascii.eqb_spec a b) as [->|N]; [rewrite IH; split; congruence|]. split; [discriminate|]. intros [= ? ?]. congruence.
Qed.
Lemma cut_line_one l s : one_line l -> cut_line (l ++ nl :: s) = Some (l, s).
Proof.
  induction l as [|c l IH]; intros H; cbn; [reflexivity|]. destruct (Ascii.eqb_spec c nl) as [->|N]; [exfalso; apply H; left; reflexivity|].
  rewrite IH; [reflexivity|]. intros K. apply H. right. exact K.
Qed.
Lemma cut_line_none l : one_line l -> cut_line l = None.
Proof.
  induction l as [|c l IH]; intros H; cbn; [reflexivity|]. destruct (Ascii.eqb_spec c nl) as [->|N]; [exfalso; apply H; left; reflexivity|].
  rewrite IH; [reflexivity|]. intros K. apply H. right. exact K.
Qed.
Lemma cut_line_length s l r : cut_line s = Some (l, r) -> List.length r < List.length s.
Proof.
  revert l r. induction s as [|c s IH]; intros l r; cbn; [discriminate|]. destruct (Ascii.eqb c nl); [intros [= <- <-]; lia|].
  destruct (cut_line s) as [[l' r']|]; [|discriminate]. cbn. intros [= <- <-]. specialize (IH l' r' eq_refl). lia.
Qed.
Lemma rest_length s r : rest_of_line s = Some r -> List.length r < List.length s.
Proof. unfold rest_of_line. destruct (cut_line s) as [[[|c l] r']|] eqn:E; try discriminate. intros [= <-]. eapply cut_line_length, E. Qed.
Lemma prefix_length p s t : after_prefix p s = Some t -> List.length t <= List.length s.
Proof. intros H. apply after_prefix_spec in H as ->. rewrite app_length. lia. Qed.
Lemma indented_line_length s r : indented_line s = Some r -> List.length r < List.length s.
Proof.
  unfold indented_line. destruct (after_prefix spaces4 s) as [t|] eqn:E; [intros H; apply rest_length in H; apply prefix_length in E; lia|].
  destruct (after_prefix [tab] s) as [t|] eqn:E'; [|discriminate]. intros H. apply rest_length in H. apply prefix_length in E'. lia.
Qed.
Lemma indented_lines_length n : forall s, List.length (indented_lines n s) <= List.length s.
Proof. induction n as [|n IH]; intros s; cbn; [lia|]. destruct (indented_line s) as [r|] eqn:E; [|lia]. apply indented_line_length in E. specialize (IH r). lia. Qed.
Lemma match_length p s r : match_entry p s = Some r -> List.length r < List.length s.
Proof.
  unfold match_entry. destruct (after_prefix p s) as [t|] eqn:A; [|discriminate]. destruct (rest_of_line t) as [u|] eqn:B; [|discriminate]. destruct (indented_line u) as [v|] eqn:C; [|discriminate].
  intros [= <-]. apply prefix_length in A. apply rest_length in B. apply indented_line_length in C. pose proof (indented_lines_length (List.length v) v). lia.
Qed.
Lemma sub_fuel p : forall n m s, List.length s < n -> List.length s < m -> sub_empty n p s = sub_empty m p s.
Proof.
  induction n as [|n IH]; intros [|m] s H1 H2; try lia. cbn. destruct (match_entry p s) as [r|] eqn:E; [apply match_length in E; apply IH; lia|].
  destruct s as [|c s]; [reflexivity|]. cbn in *. f_equal. apply IH; lia.
Qed.
Lemma remove_match p s r : match_entry p s = Some r -> remove_parameter p s = remove_parameter p r.
Proof. intros E. unfold remove_parameter at 1. cbn [sub_empty]. rewrite E. apply match_length in E. apply sub_fuel; lia. Qed.
Lemma remove_cons p c s : match_entry p (c :: s) = None -> remove_parameter p (c :: s) = c :: remove_parameter p s.
Proof. intros E. unfold remove_parameter at 1. cbn [sub_empty]. rewrite E. reflexivity. Qed.
Lemma remove_nil p : p <> [] -> remove_parameter p [] = [].
Proof. destruct p; [congruence|reflexivity]. Qed.

Lemma split_at_nl p l s t : one_line p -> l ++ nl :: s = p ++ t -> exists b, l = p ++ b /\ t = b ++ nl :: s.
Proof.
  revert l. induction p as [|a p IH]; intros l Hp H; [exists l; auto|]. destruct l as [|c l]; cbn in H; [injection H as <- _; exfalso; apply Hp; left; reflexivity|].
  injection H as -> H. destruct (IH l) as (b & -> & ->); [intros K; apply Hp; right; exact K|exact H|]. exists b. auto.
Qed.
Lemma spaces_one : one_line spaces4.
Proof. intros [H|[H|[H|[H|[]]]]]; discriminate. Qed.
Lemma tab_one : one_line [tab].
Proof. intros [H|[]]; discriminate. Qed.
Lemma rest_one l s : one_line l -> rest_of_line (l ++ nl :: s) = match l with [] => None | _ => Some s end.
Proof. intros H. unfold rest_of_line. rewrite cut_line_one by exact H. destruct l; reflexivity. Qed.
Lemma one_tail a b : one_line (a ++ b) -> one_line b.
Proof. intros H K. apply H, in_or_app. right. exact K. Qed.
Lemma indented_line_yes l s : one_line l -> indented l -> indented_line (l ++ nl :: s) = Some s.
Proof.
  intros H (c & t & [-> | ->]); unfold indented_line.
  - rewrite <- app_assoc. rewrite (proj2 (after_prefix_spec spaces4 _ _) eq_refl). rewrite rest_one by (eapply one_tail, H). reflexivity.
  - assert (N : after_prefix spaces4 ((tab :: c :: t) ++ nl :: s) = None) by reflexivity. rewrite N. change ((tab :: c :: t) ++ nl :: s) with ([tab] ++ ((c :: t) ++ nl :: s)).
    rewrite (proj2 (after_prefix_spec [tab] _ _) eq_refl). rewrite rest_one by (apply (one_tail [tab]), H). reflexivity.
Qed.
Lemma indented_line_no l s : one_line l -> ~ indented l -> indented_line (l ++ nl :: s) = None.
Proof.
  intros H N. unfold indented_line. destruct (after_prefix spaces4 (l ++ nl :: s)) as [t|] eqn:E.
  - apply after_prefix_spec in E. apply split_at_nl in E as (b & -> & ->); [|exact spaces_one]. rewrite rest_one by (eapply one_tail, H).
    destruct b as [|c b]; [reflexivity|]. exfalso. apply N. exists c, b. left. reflexivity.
  - destruct (after_prefix [tab] (l ++ nl :: s)) as [t|] eqn:E'; [|reflexivity]. apply after_prefix_spec in E'. apply split_at_nl in E' as (b & -> & ->); [|exact tab_one].
    rewrite rest_one by (eapply one_tail, H). destruct b as [|c b]; [reflexivity|]. exfalso. apply N. exists c, b. right. reflexivity.
Qed.
Lemma indented_line_last l : one_line l -> indented_line l = None.
Proof.
  intros H. assert (R : forall a t, l = a ++ t -> rest_of_line t = None).
  { intros a t ->. unfold rest_of_line. rewrite cut_line_none by (eapply one_tail, H). reflexivity. }
  unfold indented_line. destruct (after_prefix spaces4 l) as [t|] eqn:E; [apply after_prefix_spec in E; eapply R, E|].
  destruct (after_prefix [tab] l) as [t|] eqn:E'; [apply after_prefix_spec in E'; eapply R, E'|reflexivity].
Qed.
Lemma indented_text lines last : Forall one_line lines -> one_line last -> flush_left lines -> indented_line (text lines last) = None.
Proof.
  intros H L F. destruct lines as [|l lines]; unfold text; cbn; [apply indented_line_last, L|]. inversion_clear H. rewrite <- !app_assoc. cbn. apply indented_line_no; assumption.
Qed.

(** *** Lines *)
Lemma text_cons l lines last : text (l :: lines) last = l ++ nl :: text lines last.
Proof. unfold text. cbn. rewrite <- !app_assoc. reflexivity. Qed.
(** the last line has no line feed behind it and stays *)
Lemma remove_last p last : p <> [] -> one_line p -> one_line last -> remove_parameter p last = last.
Proof.
  intros N P. induction last as [|c l IH]; intros H; [apply remove_nil, N|]. rewrite remove_cons; [f_equal; apply IH; intros K; apply H; right; exact K|].
  unfold match_entry. destruct (after_prefix p (c :: l)) as [t|] eqn:E; [|reflexivity]. apply after_prefix_spec in E. unfold rest_of_line. rewrite cut_line_none; [reflexivity|]. rewrite E in H. eapply one_tail, H.
Qed.
(** a line stays if the word is not in it or no indented line follows *)
Lemma remove_line p l s : p <> [] -> one_line p -> one_line l -> (forall a b, l = a ++ p ++ b -> b <> [] -> indented_line s = None) ->
  remove_parameter p (l ++ nl :: s) = l ++ nl :: remove_parameter p s.
Proof.
  intros N P. induction l as [|c l IH]; intros H Q; cbn [app].
  - rewrite remove_cons; [reflexivity|]. unfold match_entry. destruct (after_prefix p (nl :: s)) as [t|] eqn:E; [|reflexivity]. apply after_prefix_spec in E.
    destruct p as [|a p]; [congruence|]. injection E as <- _. exfalso. apply P. left. reflexivity.
  - rewrite remove_cons.
    + f_equal. apply IH; [intros K; apply H; right; exact K|]. intros a b E Nb. apply (Q (c :: a) b); [cbn; congruence|exact Nb].
    + unfold match_entry. destruct (after_prefix p (c :: l ++ nl :: s)) as [t|] eqn:E; [|reflexivity]. apply after_prefix_spec in E. change (c :: l ++ nl :: s) with ((c :: l) ++ nl :: s) in E.
      apply split_at_nl in E as (b & E & ->); [|exact P]. rewrite rest_one by (rewrite E in H; eapply one_tail, H). destruct b as [|d b]; [reflexivity|]. rewrite (Q [] (d :: b)); [reflexivity|exact E|discriminate].
Qed.
Lemma remove_lines p lines s : p <> [] -> one_line p -> Forall one_line lines -> quiet p lines -> indented_line s = None ->
  remove_parameter p (concat (map (fun l => l ++ [nl]) lines) ++ s) = concat (map (fun l => l ++ [nl]) lines) ++ remove_parameter p s.
Proof.
  intros N P H Q I. induction lines as [|l lines IH]; [reflexivity|]. inversion H as [|? ? Hl Hs]; subst. cbn. rewrite <- !app_assoc. cbn.
  rewrite remove_line; [f_equal; f_equal; apply IH; [exact Hs|]|exact N|exact P|exact Hl|].
  - intros i l1 m a b E1 E2. apply (Q (S i) l1 m a b E1 E2).
  - intros a b E Nb. destruct lines as [|m lines]; [exact I|]. cbn. rewrite <- !app_assoc. cbn. inversion_clear Hs. apply indented_line_no; [assumption|]. exact (Q 0 l m a b eq_refl eq_refl E Nb).
Qed.
Lemma indented_lines_all desc s : Forall (fun l => one_line l /\ indented l) desc -> indented_line s = None ->
  forall n, List.length desc <= n -> indented_lines n (concat (map (fun l => l ++ [nl]) desc) ++ s) = s.
Proof.
  intros H I. induction H as [|l desc [H1 H2] H IH]; intros n Hn; cbn in *.
  - destruct n; [reflexivity|]. cbn. rewrite I. reflexivity.
  - destruct n as [|n]; [lia|]. cbn. rewrite <- !app_assoc. cbn. rewrite indented_line_yes by assumption. apply IH. lia.
Qed.
Lemma lines_length desc : List.length desc <= List.length (concat (map (fun l : list ascii => l ++ [nl]) desc)).
Proof. induction desc as [|l desc IH]; cbn; [lia|]. rewrite !app_length. cbn. lia. Qed.
(** the entry of the parameter itself *)
Lemma remove_entry e s : entry_ok e -> indented_line s = None ->
  remove_parameter (name e) (concat (map (fun l => l ++ [nl]) (entry_lines e)) ++ s) = remove_parameter (name e) s.
Proof.
  intros [[N1 N2] [D1 D2] [T1 T2]] I. apply remove_match. unfold entry_lines. cbn [map concat]. rewrite <- !app_assoc. unfold match_entry.
  rewrite (proj2 (after_prefix_spec (name e) _ _) eq_refl). change ([nl] ++ ?x) with (nl :: x). cbn [app]. rewrite rest_one by exact D1. destruct (declared e) as [|c d]; [congruence|].
  destruct (description e) as [|l desc]; [congruence|]. inversion T2 as [|? ? [H1 H2] H3]; subst. cbn [map concat]. rewrite <- !app_assoc. cbn [app]. rewrite indented_line_yes by assumption.
  f_equal. apply indented_lines_all; [exact H3|exact I|]. rewrite app_length. pose proof (lines_length desc). lia.
Qed.

(** *** C109 *)
(** what must hold of a documentation for the removal of [p]: [p] is an identifier and outside its own entry it is nowhere above an indented line *)
Record removable (p : list ascii) (head : list (list ascii)) (entries : list entry) (tail : list (list ascii)) : Prop := {
  rm_name : identifier p;
  rm_head : quiet p head;
  rm_entries : forall e, In e entries -> name e <> p -> quiet p (entry_lines e);
  rm_tail : quiet p tail }.
Record doc_ok (head : list (list ascii)) (entries : list entry) (tail : list (list ascii)) (last : list ascii) : Prop := {
  dk_head : Forall one_line head;
  dk_entries : Forall entry_ok entries;
  dk_tail : Forall one_line tail /\ flush_left tail;
  dk_last : one_line last }.
Definition without (ps : list (list ascii)) (entries : list entry) : list entry :=
  List.filter (fun e => negb (if in_dec (list_eq_dec ascii_dec) (name e) ps then true else false)) entries.

Lemma header_not_indented p d : identifier p -> ~ indented (p ++ d).
Proof.
  intros [_ H] (c & t & [E|E]); destruct p as [|a p]; try contradiction; destruct H as [H1 H2]; injection E; intros; subst; congruence.
Qed.
Lemma entry_one e : entry_ok e -> Forall one_line (entry_lines e).
Proof.
  intros [[N _] [D _] [_ T]]. constructor; [intros K; apply in_app_or in K as [K|K]; contradiction|]. eapply Forall_impl; [|exact T]. intros l [H _]. exact H.
Qed.
Lemma entries_flush entries tail last : Forall entry_ok entries -> Forall one_line tail -> flush_left tail -> one_line last ->
  indented_line (concat (map (fun l => l ++ [nl]) (concat (map entry_lines entries))) ++ text tail last) = None.
Proof.
  intros H T F L. destruct H as [|e entries He H]; [apply indented_text; assumption|]. cbn [map concat]. rewrite map_app, concat_app. unfold entry_lines at 1. cbn [map concat app]. rewrite <- !app_assoc. cbn [app].
  rewrite app_assoc. apply indented_line_no; [|apply header_not_indented, (ok_name e He)]. pose proof (entry_one e He) as K. inversion K; assumption.
Qed.
Lemma remove_entries p entries tail last : removable p [] entries tail -> doc_ok [] entries tail last ->
  remove_parameter p (concat (map (fun l => l ++ [nl]) (concat (map entry_lines entries))) ++ text tail last) =
  concat (map (fun l => l ++ [nl]) (concat (map entry_lines (without [p] entries)))) ++ text tail last.
Proof.
  intros [[P Pn] _ Q Qt] [_ E [T F] L]. assert (N : p <> []) by (intros ->; contradiction).
  induction E as [|e entries He E IH].
  - cbn. unfold text. rewrite remove_lines; [|exact N|exact P|exact T|exact Qt|apply indented_line_last, L]. rewrite remove_last by assumption. reflexivity.
  - assert (I := entries_flush entries tail last E T F L). cbn [map concat]. rewrite map_app, concat_app, <- app_assoc. unfold without. cbn [List.filter].
    destruct (in_dec (list_eq_dec ascii_dec) (name e) [p]) as [Y|Y].
    + destruct Y as [Y|[]]. subst p. cbn [negb]. rewrite remove_entry by assumption. apply IH. intros f Hf. apply Q. right. exact Hf.
    + cbn [negb map concat]. rewrite map_app, concat_app, <- app_assoc. rewrite remove_lines; [|exact N|exact P|apply entry_one, He| |exact I].
      * f_equal. apply IH. intros f Hf. apply Q. right. exact Hf.
      * apply Q; [left; reflexivity|]. intros K. apply Y. left. congruence.
Qed.
Lemma remove_one p head entries tail last : removable p head entries tail -> doc_ok head entries tail last ->
  remove_parameter p (doc head entries tail last) = doc head (without [p] entries) tail last.
Proof.
  intros [I Qh Q Qt] [H E [T F] L]. assert (N : p <> []) by (intros ->; destruct I; contradiction).
  assert (R : forall es, doc head es tail last = concat (map (fun l => l ++ [nl]) head) ++ concat (map (fun l => l ++ [nl]) (concat (map entry_lines es))) ++ text tail last).
  { intros es. unfold doc, text. rewrite !map_app, !concat_app, <- !app_assoc. reflexivity. }
  rewrite !R. rewrite remove_lines; [|exact N|apply I|exact H|exact Qh|apply entries_flush; assumption]. f_equal.
  apply remove_entries; constructor; auto. intros i l m a b X. destruct i; discriminate.
Qed.
Lemma without_in ps e entries : In e (without ps entries) -> In e entries.
Proof. unfold without. intros H. apply filter_In in H. tauto. Qed.
Lemma without_cons p ps entries : without ps (without [p] entries) = without (p :: ps) entries.
Proof.
  unfold without. induction entries as [|e entries IH]; [reflexivity|]. cbn [List.filter].
  destruct (in_dec (list_eq_dec ascii_dec) (name e) [p]) as [A|A], (in_dec (list_eq_dec ascii_dec) (name e) (p :: ps)) as [B|B]; cbn [negb List.filter].
  - exact IH.
  - exfalso. apply B. destruct A as [A|[]]. left. exact A.
  - destruct (in_dec (list_eq_dec ascii_dec) (name e) ps) as [C|C]; [exact IH|]. exfalso. destruct B as [B|B]; [apply A; left; exact B|contradiction].
  - destruct (in_dec (list_eq_dec ascii_dec) (name e) ps) as [C|C]; [exfalso; apply B; right; exact C|]. cbn [negb]. f_equal. exact IH.
Qed.
(** Whatever the order in which Python visits the set: exactly the entries of the removed parameters are gone. *)
Theorem C109_removed : forall order head entries tail last, doc_ok head entries tail last -> (forall p, In p order -> removable p head entries tail) ->
  filtered_doc order (doc head entries tail last) = doc head (without order entries) tail last.
Proof.
  induction order as [|p order IH]; intros head entries tail last D R.
  - cbn. f_equal. unfold without. induction entries as [|e es IHe]; [reflexivity|]. cbn. f_equal. apply IHe.
    + destruct D as [A B C E]. constructor; auto. inversion B; assumption.
    + intros p [].
  - change (filtered_doc (p :: order) ?d) with (filtered_doc order (remove_parameter p d)).
    rewrite remove_one; [|apply R; left; reflexivity|exact D]. rewrite IH.
    + rewrite without_cons. reflexivity.
    + destruct D as [A B C E]. constructor; auto. apply Forall_forall. intros e He. rewrite Forall_forall in B. apply B, (without_in _ _ _ He).
    + intros q Hq. destruct (R q (or_intror Hq)) as [I Qh Q Qt]. constructor; auto. intros e He. apply Q, (without_in _ _ _ He).
Qed.
(** a text that mentions none of the parameters above an indented line stays as it is *)
Theorem C109_untouched : forall order lines last, Forall one_line lines -> one_line last -> (forall p, In p order -> identifier p /\ quiet p lines) ->
  filtered_doc order (text lines last) = text lines last.
Proof.
  induction order as [|p order IH]; intros lines last H L R; [reflexivity|]. change (filtered_doc (p :: order) ?d) with (filtered_doc order (remove_parameter p d)).
  destruct (R p (or_introl eq_refl)) as [[P Pn] Q]. assert (N : p <> []) by (intros ->; contradiction). unfold text at 1.
  rewrite remove_lines; [|exact N|exact P|exact H|exact Q|apply indented_line_last, L]. rewrite remove_last by assumption. apply IH; auto. intros q Hq. apply R. right. exact Hq.
Qed.

(** whatever the documentation: the removals only leave characters out *)
Inductive left_out : list ascii -> list ascii -> Prop :=
| lo_nil : left_out [] []
| lo_keep c s t : left_out s t -> left_out (c :: s) (c :: t)
| lo_drop c s t : left_out s t -> left_out (c :: s) t.
Lemma left_out_app a s t : left_out s t -> left_out (a ++ s) t.
Proof. induction a as [|c a IH]; intros H; [exact H|]. cbn. apply lo_drop, IH, H. Qed.
Lemma left_out_refl s : left_out s s.
Proof. induction s; constructor; assumption. Qed.
Lemma left_out_trans a b c : left_out a b -> left_out b c -> left_out a c.
Proof.
  intros H. revert c. induction H as [|x s t H IH|x s t H IH]; intros c K; [exact K| |apply lo_drop, IH, K]. inversion K; subst; [apply lo_keep, IH; assumption|apply lo_drop, IH; assumption].
Qed.
Lemma rest_suffix s r : rest_of_line s = Some r -> exists a, s = a ++ r.
Proof.
  unfold rest_of_line. destruct (cut_line s) as [[l u]|] eqn:E; [|discriminate]. assert (K : s = (l ++ [nl]) ++ u).
  { clear r. revert l u E. induction s as [|c s IH]; intros l u; cbn; [discriminate|]. destruct (Ascii.eqb_spec c nl) as [->|]; [intros [= <- <-]; reflexivity|].
    destruct (cut_line s) as [[l' u']|]; [|discriminate]. cbn. intros [= <- <-]. cbn. f_equal. apply IH. reflexivity. }
  destruct l; [discriminate|]. intros [= <-]. eexists. exact K.
Qed.
Lemma indented_line_suffix s r : indented_line s = Some r -> exists a, s = a ++ r.
Proof.
  unfold indented_line. destruct (after_prefix spaces4 s) as [t|] eqn:E.
  - intros H. apply after_prefix_spec in E as ->. apply rest_suffix in H as [a ->]. exists (spaces4 ++ a). apply app_assoc.
  - destruct (after_prefix [tab] s) as [t|] eqn:E'; [|discriminate]. intros H. apply after_prefix_spec in E' as ->. apply rest_suffix in H as [a ->]. exists ([tab] ++ a). apply app_assoc.
Qed.
Lemma indented_lines_suffix n : forall s, exists a, s = a ++ indented_lines n s.
Proof.
  induction n as [|n IH]; intros s; [exists []; reflexivity|]. cbn. destruct (indented_line s) as [r|] eqn:E; [|exists []; reflexivity].
  apply indented_line_suffix in E as [a ->]. destruct (IH r) as [b E]. exists (a ++ b). rewrite <- app_assoc. f_equal. exact E.
Qed.
Lemma sub_left_out p : forall n s, List.length s < n -> left_out s (sub_empty n p s).
Proof.
  induction n as [|n IH]; intros s Hn; [lia|]. cbn. destruct (match_entry p s) as [r|] eqn:E.
  - pose proof (match_length p s r E) as Lr. assert (Sx : exists a, s = a ++ r).
    { unfold match_entry in E. destruct (after_prefix p s) as [t|] eqn:A; [|discriminate]. destruct (rest_of_line t) as [u|] eqn:B; [|discriminate]. destruct (indented_line u) as [v|] eqn:C; [|discriminate]. injection E as <-.
      apply after_prefix_spec in A as ->. apply rest_suffix in B as [b ->]. apply indented_line_suffix in C as [c ->]. destruct (indented_lines_suffix (List.length v) v) as [d D]. exists (p ++ b ++ c ++ d). rewrite <- !app_assoc. do 3 f_equal. exact D. }
    destruct Sx as [a ->]. apply left_out_app, IH. lia.
  - destruct s as [|c s]; [constructor|]. cbn in Hn. apply lo_keep, IH. lia.
Qed.
Theorem C109_nothing_added : forall order d, left_out d (filtered_doc order d).
Proof.
  induction order as [|p order IH]; intros d; [apply left_out_refl|]. change (filtered_doc (p :: order) d) with (filtered_doc order (remove_parameter p d)).
  eapply left_out_trans; [|apply IH]. apply sub_left_out. lia.
Qed.

(** *** The documentations of detrend_polynomial and filter *)
Local Open Scope string_scope.
(** a literal *)
Definition chars (s : string) : list ascii := list_ascii_of_string s.
(** the word occurs in the text *)
Definition contains (w s : list ascii) : Prop := exists a b, s = (a ++ w ++ b)%list.

Fixpoint mentions (p l : list ascii) : bool :=
  match after_prefix p l with
  | Some (_ :: _) => true
  | _ => match l with [] => false | _ :: l' => mentions p l' end
  end.
Definition indentedb (l : list ascii) : bool := match after_prefix spaces4 l with Some (_ :: _) => true | _ => match l with c :: _ :: _ => Ascii.eqb c tab | _ => false end end.
Fixpoint quietb (p : list ascii) (lines : list (list ascii)) : bool :=
  match lines with l :: ((m :: _) as r) => negb (mentions p l && indentedb m) && quietb p r | _ => true end.
Fixpoint containsb (w s : list ascii) : bool := match after_prefix w s with Some _ => true | None => match s with [] => false | _ :: s' => containsb w s' end end.
Definition one_lineb (l : list ascii) : bool := negb (existsb (Ascii.eqb nl) l).
Lemma mentions_yes p a b : b <> [] -> mentions p (a ++ p ++ b) = true.
Proof.
  intros N. induction a as [|c a IH]; cbn [app].
  - destruct (p ++ b)%list as [|x y] eqn:E; [destruct p, b; cbn in E; congruence|]. cbn [mentions]. rewrite <- E. rewrite (proj2 (after_prefix_spec p _ _) eq_refl). destruct b; congruence.
  - cbn [mentions]. rewrite IH. destruct (after_prefix p (c :: a ++ p ++ b)) as [[|]|]; reflexivity.
Qed.
Lemma indentedb_yes l : indented l -> indentedb l = true.
Proof.
  intros (c & t & [-> | ->]); unfold indentedb; [rewrite (proj2 (after_prefix_spec spaces4 _ _) eq_refl); reflexivity|]. reflexivity.
Qed.
Lemma indentedb_no l : indentedb l = true -> indented l.
Proof.
  unfold indentedb. destruct (after_prefix spaces4 l) as [[|c t]|] eqn:E; intros H.
  - apply after_prefix_spec in E. rewrite app_nil_r in E. subst l. discriminate.
  - apply after_prefix_spec in E. exists c, t. left. exact E.
  - destruct l as [|a [|c t]]; try discriminate. destruct (Ascii.eqb_spec a tab) as [->|]; [|discriminate]. exists c, t. right. reflexivity.
Qed.
Lemma quietb_quiet p lines : quietb p lines = true -> quiet p lines.
Proof.
  induction lines as [|l [|m lines] IH]; intros H i x y a b E1 E2 Ex Nb; try (destruct i as [|i]; [discriminate|destruct i; discriminate]).
  cbn [quietb] in H. apply andb_true_iff in H as [H1 H2]. destruct i as [|i].
  - injection E1 as ->. injection E2 as ->. intros I. apply negb_true_iff, andb_false_iff in H1 as [H1|H1]; [rewrite Ex, mentions_yes in H1 by exact Nb|rewrite indentedb_yes in H1 by exact I]; discriminate.
  - exact (IH H2 i x y a b E1 E2 Ex Nb).
Qed.
Lemma containsb_spec w s : containsb w s = true <-> contains w s.
Proof.
  induction s as [|c s IH]; cbn [containsb].
  - destruct (after_prefix w []) as [t|] eqn:E; [apply after_prefix_spec in E; split; [intros _; exists [], t; exact E|reflexivity]|]. split; [discriminate|]. intros (a & b & H).
    destruct a; [|discriminate]. cbn in H. symmetry in H. assert (K : after_prefix w [] = Some b) by (apply after_prefix_spec; congruence). congruence.
  - destruct (after_prefix w (c :: s)) as [t|] eqn:E; [apply after_prefix_spec in E; split; [intros _; exists [], t; exact E|reflexivity]|]. rewrite IH. split.
    + intros (a & b & ->). exists (c :: a), b. reflexivity.
    + intros (a & b & H). destruct a as [|x a]; [cbn in H; assert (K : after_prefix w (c :: s) = Some b) by (apply after_prefix_spec; exact H); congruence|]. injection H as _ H. exists a, b. exact H.
Qed.
Lemma one_lineb_spec l : one_lineb l = true -> one_line l.
Proof.
  intros H K. unfold one_lineb in H. apply negb_true_iff in H. assert (X : existsb (Ascii.eqb nl) l = true) by (apply existsb_exists; exists nl; split; [exact K|apply Ascii.eqb_refl]). congruence.
Qed.

(** detrend_polynomial, surface.py:545-562, without its indentation, with the note of base.py:75-83 *)
Definition detrend_head : list (list ascii) := map chars [""; "Detrend a 2d array of height data using a polynomial surface, handling NaN values"; ""; "Parameters"; "----------"].
Definition degree_entry : entry := {| name := chars "degree"; declared := chars " : int, default 1"; description := [chars "    Polynomial degree."] |}.
Definition inplace_entry : entry := {| name := chars "inplace"; declared := chars " : bool, default False";
  description := map chars ["    If False, create and return new Surface object with processed data. If True, changes data inplace and"; "    return self."] |}.
Definition trend_entry : entry := {| name := chars "return_trend"; declared := chars ": bool, default False";
  description := [chars "    return the trend as a Surface object alongside the detrended surface if True."] |}.
Definition detrend_tail : list (list ascii) := map chars [""; "Returns"; "-------"; "Surface or tuple of Surfaces"; ""; ".. note:: "; ""] ++
  [tab :: chars "This method is available in the Batch class. The following parameters are removed in the batch version: `inplace`, `return_trend`."].
Theorem C109_example : let entries := [degree_entry; inplace_entry; trend_entry] in let removed := map chars ["self"; "inplace"; "return_trend"] in
  doc_ok detrend_head entries detrend_tail [] /\ (forall p, In p removed -> removable p detrend_head entries detrend_tail) /\ without removed entries = [degree_entry].
Proof.
  intros entries removed. assert (O : forall lines, forallb one_lineb lines = true -> Forall one_line lines) by (intros lines H; apply Forall_forall; intros l Hl; rewrite forallb_forall in H; apply one_lineb_spec, H, Hl).
  assert (ID : forall p, one_lineb p = true -> match p with [] => false | c :: _ => negb (Ascii.eqb c " "%char) && negb (Ascii.eqb c tab) end = true -> identifier p).
  { intros p A B. split; [apply one_lineb_spec, A|]. destruct p as [|c p]; [discriminate|]. apply andb_true_iff in B as [B1 B2]. apply negb_true_iff, Ascii.eqb_neq in B1. apply negb_true_iff, Ascii.eqb_neq in B2. auto. }
  assert (D : forall l, forallb (fun x => one_lineb x && indentedb x) l = true -> Forall (fun x => one_line x /\ indented x) l).
  { intros l H. apply Forall_forall. intros x Hx. rewrite forallb_forall in H. specialize (H x Hx). apply andb_true_iff in H as [H1 H2]. split; [apply one_lineb_spec, H1|apply indentedb_no, H2]. }
  split; [|split].
  - constructor; [apply O; vm_compute; reflexivity| |split; [apply O; vm_compute; reflexivity|]|intros []].
    + do 3 (apply Forall_cons; [constructor; [apply ID; vm_compute; reflexivity|split; [apply one_lineb_spec; vm_compute; reflexivity|discriminate]|split; [discriminate|apply D; vm_compute; reflexivity]]|]). apply Forall_nil.
    + cbn. intros I. apply indentedb_yes in I. discriminate.
  - intros p Hp. assert (Ip : identifier p) by (destruct Hp as [<-|[<-|[<-|[]]]]; apply ID; vm_compute; reflexivity).
    constructor; [exact Ip| | |].
    + apply quietb_quiet. destruct Hp as [<-|[<-|[<-|[]]]]; vm_compute; reflexivity.
    + intros e He Ne. apply quietb_quiet. destruct Hp as [<-|[<-|[<-|[]]]], He as [<-|[<-|[<-|[]]]]; try (exfalso; apply Ne; reflexivity); vm_compute; reflexivity.
    + apply quietb_quiet. destruct Hp as [<-|[<-|[<-|[]]]]; vm_compute; reflexivity.
  - vm_compute. reflexivity.
Qed.
(** filter, base.py:341-376: the description of inplace mentions self above an indented line *)
Definition filter_doc : list ascii := text (map chars [
  "";
  "Filters the topography by applying a Gaussian filter.";
  "";
  "There a several types of filtering:";
  "";
  "- 'highpass': computes spatial frequencies above the specified cutoff value";
  "- 'lowpass': computes spatial frequencies below the specified cutoff value";
  "- 'both': computes and returns both the highpass and lowpass filtered topographies";
  "- 'bandpass': computes frequencies below the specified cutoff value and above the value specified for cutoff2";
  "";
  "The object's data can be changed inplace by specifying 'inplace=True' for 'highpass', 'lowpass' and";
  "'bandpass' mode. For mode='both', inplace=True will raise a ValueError.";
  "";
  "Parameters";
  "----------";
  "filter_type : str";
  "    Mode of filtering. Possible values: 'highpass', 'lowpass', 'both', 'bandpass'.";
  "cutoff : float";
  "    Cutoff wavelength in µm at which the high and low spatial frequencies are separated.";
  "    Actual cutoff will be rounded to the nearest pixel unit (1/px) equivalent.";
  "cutoff2 : float | None, default None";
  "    Used only in mode='bandpass'. Specifies the larger cutoff wavelength of the bandpass filter. Must be greater";
  "    than cutoff.";
  "inplace : bool, default False";
  "    If False, create and return new object with processed data. If True, changes data inplace and";
  "    return self. Inplace operation is not compatible with mode='both' argument, since two objects will be";
  "    returned.";
  "endeffect_mode : {reflect, constant, nearest, mirror, wrap}, default reflect";
  "    The parameter determines how the endeffects of the filter at the boundaries of the data are managed.";
  "    For details, see the documentation of scipy.ndimage.gaussian_filter.";
  "    https://docs.scipy.org/doc/scipy/reference/generated/scipy.ndimage.gaussian_filter.html";
  "";
  "Returns";
  "-------";
  "Surface | Profile"] ++ map chars [""; ".. note:: "; ""] ++
  [tab :: chars "This method is available in the Batch class. The following parameters are removed in the batch version: `inplace`."]) [].
(** In one order the parameter endeffect_mode, which Batch.filter does take, stays documented; in the other order it is gone. *)
Theorem C109_filter_refuted : let w := chars "endeffect_mode" in
  contains w (filtered_doc (map chars ["inplace"; "self"]) filter_doc) /\ ~ contains w (filtered_doc (map chars ["self"; "inplace"]) filter_doc).
Proof.
  cbv zeta. split; [apply containsb_spec; vm_compute; reflexivity|]. rewrite <- containsb_spec.
  assert (X : containsb (chars "endeffect_mode") (filtered_doc (map chars ["self"; "inplace"]) filter_doc) = false) by (vm_compute; reflexivity). rewrite X. discriminate.
Qed.
