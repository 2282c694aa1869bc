(** Specification vocabulary for the typed writers: what a reader gets back when a typed
    writer's calls are written as one object. *)

From Coq Require Import ZArith List Bool.
From Verif Require Import Bytes ModelFloat ModelBuf ModelObject SpecLex SpecObj SpecText SpecMeans.
Import ListNotations.
Local Open Scope Z_scope.

(** Whatever the buffer already holds and whatever the indentation, style and padding of the
    surrounding writer: exactly one object is appended, and its value satisfies [P]. *)
Definition reads (o : obj) (P : val -> Prop) : Prop :=
  forall indent pretty pad b, exists s v,
    inner (write_obj o (obj_direct indent pretty pad) b) = inner b ++ s /\
    parse_object s = Some v /\ P v.

(** Values a reader recognises. *)
Definition is_name (n : bytes) (v : val) : Prop := v = VName n.
Definition is_int (z : Z) (v : val) : Prop := v = VInt z.
Definition is_bool (b : bool) (v : val) : Prop := v = VBool b.
Definition is_ref (r : Z) (v : val) : Prop := v = VRef r 0.
Definition is_str (s : bytes) (v : val) : Prop := v = VStr s.
Definition is_real (f : f32) (v : val) : Prop := real_means f v.
Definition is_text (t : list Z) (v : val) : Prop := exists s, v = VStr s /\ text_decode s = Some t.
Definition is_rect (r : rect) (v : val) : Prop :=
  exists a b c d, v = VArr [a; b; c; d] /\
    real_means (x1 r) a /\ real_means (y1 r) b /\ real_means (x2 r) c /\ real_means (y2 r) d.

(** An array whose elements satisfy the listed predicates, in order. *)
Definition is_array (ps : list (val -> Prop)) (v : val) : Prop :=
  exists vs, v = VArr vs /\ Forall2 (fun p x => p x) ps vs.

Definition is_array_of {A} (p : A -> val -> Prop) (l : list A) (v : val) : Prop :=
  exists vs, v = VArr vs /\ Forall2 p l vs.

(** A dictionary with exactly these entries, in this order. *)
Definition is_dict (es : list (bytes * (val -> Prop))) (v : val) : Prop :=
  exists d, v = VDict d /\ Forall2 (fun e x => fst x = fst e /\ snd e (snd x)) es d.

(** A present-or-absent entry. *)
Definition entry_if {A} (key : bytes) (p : A -> val -> Prop) (o : option A) : list (bytes * (val -> Prop)) :=
  match o with Some a => [(key, p a)] | None => [] end.
