(** Several surfaces sharing numpy buffers.
    surfalize/surface.py:129-145 (data property: read-only view; setter keeps a reference), 260-271
    (__getitem__ builds a Surface on a view of _data), 662-686/688-720 (zoom/crop slice self.data, i.e. a
    read-only view), 770-811 (stepheight_level), base.py:128-134 (__setitem__), cache.py:3-58.

    A surface is a window (list of cell positions) on a buffer.  Parameters are functions [f k] of the
    heights seen through the window; each surface memoises them (ModelCache shows that the nested memo
    evaluator is equivalent to this).  Shape and steps are not tracked here: they never alias. *)
From Coq Require Import List Arith Bool.
From Verif Require Import Base.
Import ListNotations.

Section Heap.
Variables (X V K : Type).
Variable keqb : K -> K -> bool.
Variable f : K -> list X -> V.                (* parameter k of a surface with these heights *)
Variable dflt : X.

(** Cached values are parameter values, or (stepheight_level) another surface object. *)
Inductive cval := CV (v : V) | CO (i : nat).

(** a Surface: the view of a buffer its data array is, its steps and its cache (surface.py:110-123, cache.py:42-58) *)
Record surf := mkSurf {
  s_buf : nat;                 (* which buffer *)
  s_idx : list nat;            (* cells of the buffer, row-major *)
  s_writable : bool;           (* flags.writeable of _data *)
  s_cache : list (K * cval) }.
(** the numpy buffers and the Surface objects alive (surface.py:110-196) *)
Record heap := mkHeap { bufs : list (list X); surfs : list surf }.

(** the values a view shows of its buffer (numpy basic indexing, surface.py:260-271) *)
Definition heights_at (bs : list (list X)) (s : surf) : list X :=
  map (fun p => nth p (nth (s_buf s) bs []) dflt) (s_idx s).
(** surface.data of the i-th object, surface.py:129-138 *)
Definition heights (h : heap) (i : nat) : option (list X) :=
  option_map (heights_at (bufs h)) (nth_error (surfs h) i).

(** self._method_cache[key], cache.py:27-31 *)
Fixpoint look (k : K) (c : list (K * cval)) : option cval :=
  match c with [] => None | (k', v) :: c' => if keqb k k' then Some v else look k c' end.

(** replacing one element of a list (helper of the model) *)
Fixpoint upd {Y} (n : nat) (y : Y) (l : list Y) : list Y :=
  match n, l with
  | O, _ :: l' => y :: l' | S n, x :: l' => x :: upd n y l' | _, [] => [] end.

(** what a caller does: constructor, indexing, assignments, operations, cached calls (surface.py:110-271, base.py:107-134, cache.py:24-37) *)
Inductive haction :=
| HNew (d : list X)                         (* Surface(array, ...) *)
| HCall (i : nat) (k : K)                   (* surfaces[i].parameter() *)
| HSlice (i : nat) (sel : list nat)         (* surfaces[i][a:b, c:d] *)
| HView (i : nat) (sel : list nat)          (* surfaces[i].crop(...) / .zoom(...) *)
| HViewIn (i : nat) (sel : list nat)        (* ... inplace=True *)
| HOp (i : nat) (g : list X -> list X)      (* surfaces[i].center(), level(), ... *)
| HOpIn (i : nat) (g : list X -> list X)    (* ... inplace=True; also surfaces[i].data = new array *)
| HSet (i : nat) (p : nat) (x : X)          (* surfaces[i][..] = x *)
| HCachedOp (i : nat) (k : K) (g : list X -> list X).  (* surfaces[i].stepheight_level() *)

Inductive hout := HVal (v : V) | HNewSurf (i : nat) | HDone | HErr (e : exn).

(** indexing a view gives a view of the same buffer (numpy basic indexing) *)
Definition select (idx sel : list nat) : list nat := map (fun j => nth j idx 0) sel.

(** the effect of one action on the heap: surface.py:110-271, base.py:107-134, cache.py:3-58 *)
Definition hstep (h : heap) (a : haction) : heap * hout :=
  match a with
  | HNew d =>
      let b := length (bufs h) in
      (mkHeap (bufs h ++ [d]) (surfs h ++ [mkSurf b (seq 0 (length d)) true []]), HNewSurf (length (surfs h)))
  | HCall i k =>
      match nth_error (surfs h) i with
      | None => (h, HErr NameError)
      | Some s =>
          match look k (s_cache s) with
          | Some (CV v) => (h, HVal v)
          | Some (CO j) => (h, HNewSurf j)
          | None => let v := f k (heights_at (bufs h) s) in
                    (mkHeap (bufs h) (upd i (mkSurf (s_buf s) (s_idx s) (s_writable s) ((k, CV v) :: s_cache s)) (surfs h)),
                     HVal v)
          end
      end
  | HSlice i sel =>
      match nth_error (surfs h) i with
      | None => (h, HErr NameError)
      | Some s => (mkHeap (bufs h) (surfs h ++ [mkSurf (s_buf s) (select (s_idx s) sel) (s_writable s) []]),
                   HNewSurf (length (surfs h)))
      end
  | HView i sel =>
      match nth_error (surfs h) i with
      | None => (h, HErr NameError)
      | Some s => (mkHeap (bufs h) (surfs h ++ [mkSurf (s_buf s) (select (s_idx s) sel) false []]),
                   HNewSurf (length (surfs h)))
      end
  | HViewIn i sel =>
      match nth_error (surfs h) i with
      | None => (h, HErr NameError)
      | Some s => (mkHeap (bufs h) (upd i (mkSurf (s_buf s) (select (s_idx s) sel) false []) (surfs h)), HDone)
      end
  | HOp i g =>
      match nth_error (surfs h) i with
      | None => (h, HErr NameError)
      | Some s => let d := g (heights_at (bufs h) s) in
                  (mkHeap (bufs h ++ [d])
                          (surfs h ++ [mkSurf (length (bufs h)) (seq 0 (length d)) true []]),
                   HNewSurf (length (surfs h)))
      end
  | HOpIn i g =>
      match nth_error (surfs h) i with
      | None => (h, HErr NameError)
      | Some s => let d := g (heights_at (bufs h) s) in
                  (mkHeap (bufs h ++ [d]) (upd i (mkSurf (length (bufs h)) (seq 0 (length d)) true []) (surfs h)), HDone)
      end
  | HSet i p x =>
      match nth_error (surfs h) i with
      | None => (h, HErr NameError)
      | Some s =>
          if negb (s_writable s) then (h, HErr ValueError)       (* assignment destination is read-only *)
          else match nth_error (s_idx s) p with
               | None => (h, HErr IndexError)
               | Some cell =>
                   (mkHeap (upd (s_buf s) (upd cell x (nth (s_buf s) (bufs h) [])) (bufs h))
                           (upd i (mkSurf (s_buf s) (s_idx s) true []) (surfs h)), HDone)
               end
      end
  | HCachedOp i k g =>
      match nth_error (surfs h) i with
      | None => (h, HErr NameError)
      | Some s =>
          match look k (s_cache s) with
          | Some (CO j) => (h, HNewSurf j)                        (* cache hit: the same object again *)
          | Some (CV v) => (h, HVal v)
          | None =>
              let d := g (heights_at (bufs h) s) in
              let j := length (surfs h) in
              let s' := mkSurf (s_buf s) (s_idx s) (s_writable s) ((k, CO j) :: s_cache s) in
              (mkHeap (bufs h ++ [d]) (upd i s' (surfs h) ++ [mkSurf (length (bufs h)) (seq 0 (length d)) true []]),
               HNewSurf j)
          end
      end
  end.

(** a history of actions *)
Fixpoint hrun (h : heap) (l : list haction) : heap * list hout :=
  match l with [] => (h, []) | a :: l' => let (h1, o) := hstep h a in let (h2, os) := hrun h1 l' in (h2, o :: os) end.

(** no objects yet *)
Definition hinit : heap := mkHeap [] [].
End Heap.

Arguments HNew {X K}. Arguments HCall {X K}. Arguments HSlice {X K}. Arguments HView {X K}. Arguments HViewIn {X K}.
Arguments HOp {X K}. Arguments HOpIn {X K}. Arguments HSet {X K}. Arguments HCachedOp {X K}.
Arguments HVal {V}. Arguments HNewSurf {V}. Arguments HDone {V}. Arguments HErr {V}.
Arguments CV {V}. Arguments CO {V}.
Arguments mkSurf {V K}. Arguments s_buf {V K}. Arguments s_idx {V K}. Arguments s_writable {V K}. Arguments s_cache {V K}.
Arguments mkHeap {X V K}. Arguments bufs {X V K}. Arguments surfs {X V K}.
