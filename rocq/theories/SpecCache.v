(** Specification for C01-C06: a machine that has no cache at all.  Its state is just what the user sees
    (heights, steps, extents); every call recomputes from that state. *)
From Coq Require Import String List Bool ZArith.
From Verif Require Import Base ModelCache.
Import ListNotations.

Section RefMachine.
Variables (H T V A : Type).
Variables (rows cols : H -> Z).
Variable missing : H -> bool.
Variable scale : Z -> T -> T.
Variable methods : call A -> option (meth H T V A).

Notation obs := (obs H T).
Notation call_plain := (call_plain H T V A missing methods).

(** A surface with the given heights and steps, and the extents that belong to them. *)
Definition fresh (d : H) (sx sy : T) : obs :=
  mkObs d sx sy (scale (cols d - 1) sx) (scale (rows d - 1) sy).

Definition run_oper_ref (fuel : nat) (o : obs) (p : oper H T V A) : option (res (opresult H T)) :=
  if op_guarded p && missing (o_data o) then Some (Err ValueError)
  else run_plain H T V A o (call_plain o fuel) (op_body p).

Definition ref_step (fuel : nat) (o : obs) (a : action H T V A) : obs * outcome H T V :=
  match a with
  | ACall c => match call_plain o fuel c with
               | None => (o, ODepth) | Some (Err e) => (o, OErr e) | Some (Ok v) => (o, OVal v) end
  | AAssign d => (fresh d (o_sx o) (o_sy o), OUnit)
  | ASetItem edit => match edit (o_data o) with
                     | Err e => (o, OErr e)
                     | Ok d => (mkObs d (o_sx o) (o_sy o) (o_w o) (o_h o), OUnit) end
  | AInplace p => match run_oper_ref fuel o p with
                  | None => (o, ODepth) | Some (Err e) => (o, OErr e) | Some (Ok None) => (o, OSelf)
                  | Some (Ok (Some (d, sx, sy))) =>
                      (fresh d (match sx with Some s => s | None => o_sx o end)
                               (match sy with Some s => s | None => o_sy o end), OSelf) end
  | ACopy p => match run_oper_ref fuel o p with
               | None => (o, ODepth) | Some (Err e) => (o, OErr e) | Some (Ok None) => (o, OSelf)
               | Some (Ok (Some (d, sx, sy))) =>
                      (o, OObj (fresh d (match sx with Some s => s | None => o_sx o end)
                                        (match sy with Some s => s | None => o_sy o end))) end
  | AClear => (o, OUnit)
  end.

Fixpoint ref_run (fuel : nat) (o : obs) (h : list (action H T V A)) : obs * list (outcome H T V) :=
  match h with
  | [] => (o, [])
  | a :: h' => let (o1, out) := ref_step fuel o a in
               let (o2, outs) := ref_run fuel o1 h' in (o2, out :: outs)
  end.
End RefMachine.
