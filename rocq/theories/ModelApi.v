(** Model of the generic writers call by call (src/object.rs:634-1166): the stack of open writers and one step per call.
    [write_obj] (ModelObject) performs the calls for a whole tree at once; C61 proves that this loses nothing. *)

From Coq Require Import ZArith List Bool.
From Verif Require Import Bytes ModelFloat ModelBuf ModelObject ModelRenumber ModelChunk.
Import ListNotations.
Local Open Scope Z_scope.

(** The writers that are open: an [Obj] (src/object.rs:638-644), an [Array] (765-771) or [TypedArray] (859-862, a wrapper),
    a [Dict] (927-933) or [TypedDict] (1036-1039), a [Stream] (1107-1110).  Each holds a mutable borrow of the one below, so
    that only the uppermost can be used; an [Obj] has no [Drop] and is consumed by its methods. *)
Inductive writer := WObj (w : objw) | WArray (a : arrw) | WDict (d : dictw) | WStream (data : bytes) (d : dictw).

(** The calls. *)
Inductive call :=
| CPrimitive (p : prim)                        (** [Obj::primitive], src/object.rs:680-713 *)
| CArray                                       (** [Obj::array], 717-719 ([start], 743-745) *)
| CDict                                        (** [Obj::dict], 723-725 *)
| CPush                                        (** [Array::push], 799-814; [TypedArray::push] 918-923 *)
| CItem (p : prim)                             (** [Array::item], 820-823; [TypedArray::item] 896-902 *)
| CItems (l : list prim)                       (** [Array::items], 827-835; [TypedArray::items] 905-912 *)
| CInsert (key : bytes)                        (** [Dict::insert], 961-984; [TypedDict::insert] 1099-1103; on a [Stream] by [Deref] (1169) *)
| CPair (key : bytes) (p : prim)               (** [Dict::pair], 990-993; [TypedDict::pair] 1074-1080 *)
| CPairs (l : list (bytes * prim))             (** [Dict::pairs], 996-1004; [TypedDict::pairs] 1084-1093 *)
| CDrop                                        (** the writer goes out of scope: [Drop] of [Array], [Dict], [Stream]; [Finish::finish] (1597-1610) *)
| CAbandon.                                    (** an [Obj] goes out of scope unused; it is [must_use] (637) *)

Definition state : Type := list writer * buf.

(** [self.push().primitive(value)]. *)
Definition array_item (p : prim) (ab : arrw * buf) : arrw * buf :=
  let '(w, a, b) := array_push (fst ab) (snd ab) in (a, obj_primitive w p b).
(** [self.insert(key).primitive(value)]. *)
Definition dict_pair (k : bytes) (p : prim) (db : dictw * buf) : dictw * buf :=
  let '(w, d, b) := dict_insert k (fst db) (snd db) in (d, obj_primitive w p b).

(** One call on the uppermost writer; [None]: it has no such method. *)
Definition api_step (c : call) (s : state) : option state :=
  let '(st, b) := s in
  match c, st with
  | CPrimitive p, WObj w :: st => Some (st, obj_primitive w p b)
  | CArray, WObj w :: st => let '(a, b) := array_start w b in Some (WArray a :: st, b)
  | CDict, WObj w :: st => let '(d, b) := dict_start w b in Some (WDict d :: st, b)
  | CAbandon, WObj w :: st => Some (st, b)
  | CPush, WArray a :: st => let '(w, a, b) := array_push a b in Some (WObj w :: WArray a :: st, b)
  | CItem p, WArray a :: st => let '(a, b) := array_item p (a, b) in Some (WArray a :: st, b)
  | CItems l, WArray a :: st => let '(a, b) := fold_left (fun ab p => array_item p ab) l (a, b) in Some (WArray a :: st, b)
  | CDrop, WArray a :: st => Some (st, array_drop a b)
  | CInsert k, WDict d :: st => let '(w, d, b) := dict_insert k d b in Some (WObj w :: WDict d :: st, b)
  | CPair k p, WDict d :: st => let '(d, b) := dict_pair k p (d, b) in Some (WDict d :: st, b)
  | CPairs l, WDict d :: st => let '(d, b) := fold_left (fun db e => dict_pair (fst e) (snd e) db) l (d, b) in Some (WDict d :: st, b)
  | CDrop, WDict d :: st => Some (st, dict_drop d b)
  | CInsert k, WStream data d :: st => let '(w, d, b) := dict_insert k d b in Some (WObj w :: WStream data d :: st, b)
  | CPair k p, WStream data d :: st => let '(d, b) := dict_pair k p (d, b) in Some (WStream data d :: st, b)
  | CPairs l, WStream data d :: st =>
      let '(d, b) := fold_left (fun db e => dict_pair (fst e) (snd e) db) l (d, b) in Some (WStream data d :: st, b)
  | CDrop, WStream data d :: st => Some (st, stream_drop data d b)
  | _, _ => None
  end.
Fixpoint api_run (cs : list call) (s : state) : option state :=
  match cs with
  | [] => Some s
  | c :: cs => match api_step c s with Some s => api_run cs s | None => None end
  end.

(** [Array::len] (src/object.rs:787-789), [TypedArray::len] (882-884), [Dict::len] (949-951), [TypedDict::len] (1062-1064); a [Stream]
    dereferences to its [Dict]. *)
Definition writer_len (w : writer) : option Z :=
  match w with WObj _ => None | WArray a => Some (a_len a) | WDict d | WStream _ d => Some (d_len d) end.
(** [is_empty]: src/object.rs:793-795, 888-890, 955-957, 1068-1070. *)
Definition writer_is_empty (w : writer) : option bool := option_map (fun n => n =? 0) (writer_len w).

(** [chunk.indirect(id)] (src/chunk.rs:193-196) and calls on the object, until no writer is open. *)
Definition api_object (id : Z) (cs : list call) (c : chunk) : option chunk :=
  let '(w, c) := chunk_indirect id c in
  match api_run cs ([WObj w], c_buf c) with
  | Some ([], b) => Some (mkChunk b (c_offsets c) (c_pretty c))
  | _ => None
  end.
(** [chunk.stream(id, data)] (src/chunk.rs:247-249) and calls on the stream; [None]: a panic, or calls that do not compile. *)
Definition api_stream (id : Z) (data : bytes) (cs : list call) (c : chunk) : option chunk :=
  let '(w, c) := chunk_indirect id c in
  match stream_start w data (c_buf c) with
  | Some (d, b) =>
      match api_run cs ([WStream data d], b) with
      | Some ([], b) => Some (mkChunk b (c_offsets c) (c_pretty c))
      | _ => None
      end
  | None => None
  end.
