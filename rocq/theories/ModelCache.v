(** Model of the per-instance method cache and of the objects that carry it.
    surfalize/cache.py:3-79, surfalize/base.py:17-37 (guard), 131-137 (__setitem__),
    surfalize/surface.py:110-123, 128-145, 170-200 (object state).

    Everything is parametric in the type [H] of height arrays, the type [T] of numbers used for steps
    and extents and the type [V] of values returned by methods: the cache logic never looks inside. *)
From Coq Require Import String List Bool ZArith.
From Verif Require Import Base.
Import ListNotations.
Open Scope string_scope.

Section CacheModel.

Variables (H T V A : Type).
(** [A] is the type of one Python argument; [str] of a positional tuple and of [kwargs.items()]. *)
Variable str_args : list A -> string.
Variable str_kwargs : list (string * A) -> string.
Variables (rows cols : H -> Z).      (* ndarray.shape[0], shape[1] *)
Variable missing : H -> bool.        (* np.any(np.isnan(data)), base.py:136-145 *)
Variable scale : Z -> T -> T.        (* k * step *)

(** A method call self.name( *args, **kwargs ). *)
Record call := mkCall { c_name : string; c_args : list A; c_kwargs : list (string * A) }.

(** cache.py:26  key = (method.__name__, str(args), str(kwargs.items())) *)
Definition key := (string * string * string)%type.
(** cache.py:26 *)
Definition key_of (c : call) : key := (c_name c, str_args (c_args c), str_kwargs (c_kwargs c)).
(** == of two key tuples, cache.py:28-35 *)
Definition key_eqb (k k' : key) : bool :=
  match k, k' with (a, b, c), (a', b', c') => String.eqb a a' && String.eqb b b' && String.eqb c c' end.

(** cache.py:47-58: the dictionary [_method_cache]; insertion in front, first match wins. *)
Definition cache := list (key * V).
(** self._method_cache.get(key), cache.py:27-31 *)
Fixpoint lookup (k : key) (ca : cache) : option V :=
  match ca with
  | [] => None
  | (k', v) :: ca' => if key_eqb k k' then Some v else lookup k ca'
  end.
(** self._method_cache[key] = value, cache.py:32-36 *)
Definition insert (k : key) (v : V) (ca : cache) : cache := (k, v) :: ca.

(** What a method body can see of [self]: surface.py:117-121, 141-145. *)
Record obs := mkObs { o_data : H; o_sx : T; o_sy : T; o_w : T; o_h : T }.

(** Method bodies: return, raise, look at the object, call another method of the object. *)
Inductive prog (X : Type) : Type :=
| Ret (x : X)
| Raise (e : exn)
| Look (k : obs -> prog X)
| Call (c : call) (k : V -> prog X).
Arguments Ret {X}. Arguments Raise {X}. Arguments Look {X}. Arguments Call {X}.

(** Decorators, outermost first (surface.py uses both [@cache @no_nonmeasured_points] and the reverse). *)
Inductive deco := Cached | Guarded.
(** a method: its decorators, outermost first, and its body (cache.py:3-40, base.py:17-39) *)
Record meth := mkMeth { m_decos : list deco; m_body : prog V }.

(** The class: attribute lookup of a method with the given arguments already bound. *)
Variable methods : call -> option meth.

(** *** Reference semantics: the same class with the [@cache] decorator removed. *)
Section Plain.
  Variable o : obs.
  (** running a body when inner calls are answered by [h] (reference semantics, no counterpart in the code) *)
  Fixpoint run_plain {X} (h : call -> option (res V)) (p : prog X) : option (res X) :=
    match p with
    | Ret x => Some (Ok x)
    | Raise e => Some (Err e)
    | Look k => run_plain h (k o)
    | Call c k => match h c with
                  | None => None
                  | Some (Err e) => Some (Err e)
                  | Some (Ok v) => run_plain h (k v)
                  end
    end.
  (** the decorators without the cache: only base.py:31-36 remains (reference semantics) *)
  Fixpoint decos_plain (ds : list deco) (body : option (res V)) : option (res V) :=
    match ds with
    | [] => body
    | Guarded :: ds' => if missing (o_data o) then Some (Err ValueError) else decos_plain ds' body
    | Cached :: ds' => decos_plain ds' body
    end.
  (** [None] = call depth [fuel] exceeded (Python's recursion limit). *)
  Fixpoint call_plain (fuel : nat) (c : call) : option (res V) :=
    match fuel with
    | O => None
    | S n => match methods c with
             | None => Some (Err AttributeError)
             | Some m => decos_plain (m_decos m) (run_plain (call_plain n) (m_body m))
             end
    end.
End Plain.

(** *** Actual semantics, threading the cache. *)
Section Memo.
  Variable o : obs.
  (** running a body when inner calls are answered by [h] and may fill the cache, cache.py:24-37 *)
  Fixpoint run_memo {X} (h : cache -> call -> option (res V) * cache) (ca : cache) (p : prog X)
    : option (res X) * cache :=
    match p with
    | Ret x => (Some (Ok x), ca)
    | Raise e => (Some (Err e), ca)
    | Look k => run_memo h ca (k o)
    | Call c k => match h ca c with
                  | (None, ca') => (None, ca')
                  | (Some (Err e), ca') => (Some (Err e), ca')
                  | (Some (Ok v), ca') => run_memo h ca' (k v)
                  end
    end.
  (** cache.py:24-37 and base.py:31-36. *)
  Fixpoint decos_memo (k : key) (ds : list deco) (body : cache -> option (res V) * cache) (ca : cache)
    : option (res V) * cache :=
    match ds with
    | [] => body ca
    | Guarded :: ds' => if missing (o_data o) then (Some (Err ValueError), ca) else decos_memo k ds' body ca
    | Cached :: ds' =>
        match lookup k ca with
        | Some v => (Some (Ok v), ca)
        | None => match decos_memo k ds' body ca with
                  | (Some (Ok v), ca') => (Some (Ok v), insert k v ca')
                  | (r, ca') => (r, ca')
                  end
        end
    end.
  (** calling a method of the object with its cache; [fuel] bounds the nesting of calls, cache.py:24-37 *)
  Fixpoint call_memo (fuel : nat) (ca : cache) (c : call) : option (res V) * cache :=
    match fuel with
    | O => (None, ca)
    | S n => match methods c with
             | None => (Some (Err AttributeError), ca)
             | Some m => decos_memo (key_of c) (m_decos m)
                           (fun ca1 => run_memo (fun ca2 c2 => call_memo n ca2 c2) ca1 (m_body m)) ca
             end
    end.
End Memo.

(** *** Objects *)
Record obj := mkObj { b_obs : obs; b_cache : cache }.

(** cache.py:50-58 *)
Definition clear_cache (b : obj) : obj := mkObj (b_obs b) [].

(** surface.py:140-145  data.setter *)
Definition data_setter (b : obj) (d : H) : obj :=
  let o := b_obs b in
  clear_cache (mkObj (mkObs d (o_sx o) (o_sy o) (scale (cols d - 1) (o_sx o)) (scale (rows d - 1) (o_sy o)))
                     (b_cache b)).

(** surface.py:170-197  _set_data *)
Definition set_data (b : obj) (d : option H) (sx sy : option T) : obj :=
  let b1 := match d with Some d => data_setter b d | None => b end in
  let o1 := b_obs b1 in
  let sx' := match sx with Some s => s | None => o_sx o1 end in
  let sy' := match sy with Some s => s | None => o_sy o1 end in
  let d1 := o_data o1 in
  clear_cache (mkObj (mkObs d1 sx' sy' (scale (cols d1 - 1) sx') (scale (rows d1 - 1) sy')) (b_cache b1)).

(** surface.py:110-123  __init__ (metadata and image layers are not part of the observable state here). *)
Definition new_obj (d : H) (sx sy : T) : obj :=
  data_setter (mkObj (mkObs d sx sy sx sy) []) d.

(** An operation computes new heights (and possibly new steps) from the object; [None] data means the
    operation returned early without change (fill_nonmeasured, surface.py:509-510). *)
Definition opresult := (option (H * option T * option T))%type.
(** an operation: whether it is decorated with no_nonmeasured_points (base.py:17-39), and its body *)
Record oper := mkOper { op_guarded : bool; op_body : prog opresult }.

(** One user action on an object. *)
Inductive action :=
| ACall (c : call)                       (* surface.Sa(), surface.depth(30), ... *)
| AAssign (d : H)                        (* surface.data = d *)
| ASetItem (edit : H -> res H)           (* surface[k] = v; may raise IndexError/ValueError *)
| AInplace (p : oper)                    (* surface.center(inplace=True), ... *)
| ACopy (p : oper)                       (* surface.center(), the returned object is observed *)
| AClear.                                (* surface.clear_cache() *)

Inductive outcome :=
| OVal (v : V) | OObj (o : obs) | OSelf | OUnit | OErr (e : exn) | ODepth.

(** running an operation with the object's cache; the guard is base.py:31-36 *)
Definition run_oper (fuel : nat) (b : obj) (p : oper) : option (res opresult) * cache :=
  if op_guarded p && missing (o_data (b_obs b)) then (Some (Err ValueError), b_cache b)
  else run_memo (b_obs b) (fun ca c => call_memo (b_obs b) fuel ca c) (b_cache b) (op_body p).

(** The concrete step: what the class does. *)
Definition step (fuel : nat) (b : obj) (a : action) : obj * outcome :=
  match a with
  | ACall c =>
      match call_memo (b_obs b) fuel (b_cache b) c with
      | (None, ca) => (mkObj (b_obs b) ca, ODepth)
      | (Some (Err e), ca) => (mkObj (b_obs b) ca, OErr e)
      | (Some (Ok v), ca) => (mkObj (b_obs b) ca, OVal v)
      end
  | AAssign d => (data_setter b d, OUnit)
  | ASetItem edit =>                                          (* base.py:128-134 *)
      match edit (o_data (b_obs b)) with
      | Err e => (b, OErr e)
      | Ok d => let o := b_obs b in
                (clear_cache (mkObj (mkObs d (o_sx o) (o_sy o) (o_w o) (o_h o)) (b_cache b)), OUnit)
      end
  | AInplace p =>
      match run_oper fuel b p with
      | (None, ca) => (mkObj (b_obs b) ca, ODepth)
      | (Some (Err e), ca) => (mkObj (b_obs b) ca, OErr e)
      | (Some (Ok None), ca) => (mkObj (b_obs b) ca, OSelf)
      | (Some (Ok (Some (d, sx, sy))), ca) => (set_data (mkObj (b_obs b) ca) (Some d) sx sy, OSelf)
      end
  | ACopy p =>
      match run_oper fuel b p with
      | (None, ca) => (mkObj (b_obs b) ca, ODepth)
      | (Some (Err e), ca) => (mkObj (b_obs b) ca, OErr e)
      | (Some (Ok None), ca) => (mkObj (b_obs b) ca, OSelf)
      | (Some (Ok (Some (d, sx, sy))), ca) =>
          let o := b_obs b in
          let sx' := match sx with Some s => s | None => o_sx o end in
          let sy' := match sy with Some s => s | None => o_sy o end in
          (mkObj o ca, OObj (b_obs (new_obj d sx' sy')))
      end
  | AClear => (clear_cache b, OUnit)
  end.

(** a history of user actions (calls, operations, assignments: base.py:107-134, surface.py:129-196) *)
Fixpoint run (fuel : nat) (b : obj) (h : list action) : obj * list outcome :=
  match h with
  | [] => (b, [])
  | a :: h' => let (b1, out) := step fuel b a in
               let (b2, outs) := run fuel b1 h' in (b2, out :: outs)
  end.

(** *** The cached mutator [stepheight_level] (surface.py:770-811): [@cache] around an operation with an
    inplace flag.  The wrapper stores the returned object after the body has cleared the cache. *)
Definition step_cached_inplace (fuel : nat) (b : obj) (c : call) (self_val : V) (p : oper) : obj * outcome :=
  match lookup (key_of c) (b_cache b) with
  | Some _ => (b, OSelf)                                     (* cache hit: nothing is executed *)
  | None =>
      match step fuel b (AInplace p) with
      | (b', OSelf) => (mkObj (b_obs b') (insert (key_of c) self_val (b_cache b')), OSelf)
      | r => r
      end
  end.

End CacheModel.

Arguments Ret {H T V A X}. Arguments Raise {H T V A X}. Arguments Look {H T V A X}. Arguments Call {H T V A X}.
Arguments mkCall {A}. Arguments c_name {A}. Arguments c_args {A}. Arguments c_kwargs {A}.
Arguments mkObs {H T}. Arguments o_data {H T}. Arguments o_sx {H T}. Arguments o_sy {H T}. Arguments o_w {H T}. Arguments o_h {H T}.
Arguments mkMeth {H T V A}. Arguments m_decos {H T V A}. Arguments m_body {H T V A}.
Arguments mkObj {H T V}. Arguments b_obs {H T V}. Arguments b_cache {H T V}.
Arguments mkOper {H T V A}. Arguments op_guarded {H T V A}. Arguments op_body {H T V A}.
Arguments ACall {H T V A}. Arguments AAssign {H T V A}. Arguments ASetItem {H T V A}. Arguments AInplace {H T V A}.
Arguments ACopy {H T V A}. Arguments AClear {H T V A}.
Arguments OVal {H T V}. Arguments OObj {H T V}. Arguments OSelf {H T V}. Arguments OUnit {H T V}. Arguments OErr {H T V}. Arguments ODepth {H T V}.
Arguments lookup {V}. Arguments insert {V}.
