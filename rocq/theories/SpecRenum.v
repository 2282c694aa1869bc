(** Specification: what renumbering should do, on object trees rather than on bytes. *)

From Coq Require Import ZArith List Bool.
From Verif Require Import Bytes ModelFloat ModelObject SpecMeans.
Import ListNotations.
Local Open Scope Z_scope.

(** The values have their Rust types: floats are bit patterns (NaN and infinities
    included), references are positive i32, dates come from the builder. *)
Definition prim_typed (p : prim) : bool :=
  match p with
  | PReal v => f32_valid v
  | PRef r => (0 <? r) && (r <=? i32_max)
  | PRect r => f32_valid (x1 r) && f32_valid (y1 r) && f32_valid (x2 r) && f32_valid (y2 r)
  | PDate d => date_ok d
  | _ => true
  end.

Fixpoint obj_typed (o : obj) : bool :=
  match o with
  | OPrim p => prim_typed p
  | OArray l => forallb obj_typed l
  | ODict l => forallb (fun e => obj_typed (snd e)) l
  end.

(** All references in an object, in document order. *)
Fixpoint obj_refs (o : obj) : list Z :=
  match o with
  | OPrim (PRef r) => [r]
  | OPrim _ => []
  | OArray l => flat_map obj_refs l
  | ODict l => flat_map (fun e => obj_refs (snd e)) l
  end.

(** Replace every reference by a given function; nothing else changes. *)
Fixpoint map_refs (f : Z -> Z) (o : obj) : obj :=
  match o with
  | OPrim (PRef r) => OPrim (PRef (f r))
  | OPrim p => OPrim p
  | OArray l => OArray (map (map_refs f) l)
  | ODict l => ODict (map (fun e => (fst e, map_refs f (snd e))) l)
  end.

(** The same with a stateful function, called once per reference in document order. *)
Section Stateful.
  Context {T : Type} (f : T -> Z -> Z * T).

  Definition thread {A} (g : A -> T -> A * T) : list A -> T -> list A * T :=
    fix go (l : list A) (t : T) : list A * T :=
      match l with
      | [] => ([], t)
      | a :: r => let '(a, t) := g a t in let '(r, t) := go r t in (a :: r, t)
      end.

  Fixpoint map_refs_st (o : obj) (t : T) : obj * T :=
    match o with
    | OPrim (PRef r) => let '(n, t) := f t r in (OPrim (PRef n), t)
    | OPrim p => (OPrim p, t)
    | OArray l => let '(l, t) := thread map_refs_st l t in (OArray l, t)
    | ODict l =>
        let '(l, t) := thread (fun e t => let '(v, t) := map_refs_st (snd e) t in ((fst e, v), t)) l t in
        (ODict l, t)
    end.
End Stateful.

(** Call a closure on a list of ids in order, keeping its answers. *)
Fixpoint call_all {T} (f : T -> Z -> Z * T) (ids : list Z) (t : T) : list Z * T :=
  match ids with
  | [] => ([], t)
  | id :: r => let '(n, t) := f t id in let '(ns, t) := call_all f r t in (n :: ns, t)
  end.

(** A closure together with a log of the ids it was asked about. *)
Definition logged {T} (f : T -> Z -> Z * T) (t : T * list Z) (id : Z) : Z * (T * list Z) :=
  let '(n, t') := f (fst t) id in (n, (t', snd t ++ [id])).

(** [b] is [a] with some references [id gen R] replaced by the answers of a closure (state
    before and after), and every other byte unchanged.  [digits v d]: [d] is a decimal
    numeral of value [v]. *)
Definition digits (v : Z) (d : bytes) : Prop :=
  d <> [] /\ forallb is_digit d = true /\ v = fold_left (fun a c => 10 * a + (bz c - 48)) d 0.
Definition gap (w : bytes) : Prop :=
  w <> [] /\ forallb (fun c => bmem c [x00; x09; x0a; x0c; x0d; x20]) w = true.

Inductive replaced {T} (f : T -> Z -> Z * T) : T -> bytes -> bytes -> T -> Prop :=
| Rep_end t : replaced f t [] [] t
| Rep_byte t c a b t' : replaced f t a b t' -> replaced f t (c :: a) (c :: b) t'
| Rep_ref t id d w1 gen g w2 new t1 a b t' :
    digits id d -> gap w1 -> digits gen g -> gap w2 -> 0 < id <= i32_max ->
    f t id = (new, t1) -> replaced f t1 a b t' ->
    replaced f t (d ++ w1 ++ g ++ w2 ++ [x52] ++ a)
                 (dec_i new ++ [x20] ++ dec_i gen ++ [x20; x52] ++ b) t'.
