(** Model of src/renumber.rs: renumbering by scanning the written bytes.

    Slices are byte lists and indices are naturals; every slicing operation that could
    panic in Rust ([slice\[a..b\]]) is the checked [slice_get], whose [None] is the panic.
    The closure [&mut dyn FnMut(Ref) -> Ref] is a state transformer
    [m : S -> Z -> Z * S] over an arbitrary type [S] of captured state. *)

From Coq Require Import ZArith List Lia Bool.
From Verif Require Import Bytes ModelFloat ModelBuf.
Import ListNotations.

(** [slice.get(a..b)]: [Some] iff [a <= b <= len]. *)
Definition slice_get (s : bytes) (a b : nat) : option bytes :=
  if ((a <=? b)%nat && (b <=? length s)%nat)%bool then Some (firstn (b - a) (skipn a s)) else None.

(** src/renumber.rs:163-165 [is_whitespace]. *)
Definition rn_whitespace (c : byte) : bool := bmem c [x00; x09; x0a; x0c; x0d; x20].

(** src/renumber.rs:152-160 [eat_suffix]: the remaining head and the eaten tail.  The
    length [i] of the head is found from the end; [eat_len] is the loop on the reversed
    slice, counting eaten bytes. *)
Fixpoint eat_len (p : byte -> bool) (rev_s : bytes) : nat :=
  match rev_s with
  | c :: r => if p c then S (eat_len p r) else O
  | [] => O
  end.
Definition eat_suffix (p : byte -> bool) (s : bytes) : bytes * bytes :=
  let i := (length s - eat_len p (rev s))%nat in (firstn i s, skipn i s).

(** src/renumber.rs:140-142 [require_whitespace_rev]: the remaining slice and whether
    the result was [Some(())]. *)
Definition require_whitespace_rev (s : bytes) : bytes * bool :=
  let '(head, tail) := eat_suffix rn_whitespace s in
  (head, match tail with [] => false | _ => true end).

(** [str::parse::<i32>] on a string of ASCII digits: [Err] when empty or above
    [i32::MAX]. *)
Definition parse_i32 (ds : bytes) : option Z :=
  match ds with
  | [] => None
  | _ => let n := fold_left (fun a d => (10 * a + (bz d - 48))%Z) ds 0%Z in
         if (n <=? i32_max)%Z then Some n else None
  end.

(** src/renumber.rs:145-149 [eat_number_rev] ([from_utf8] cannot fail on digits). *)
Definition eat_number_rev (s : bytes) : bytes * option Z :=
  let '(head, tail) := eat_suffix is_digit s in (head, parse_i32 tail).

(** src/renumber.rs:125-131 [validate_ref]. *)
Definition validate_ref (prefix : bytes) : option (nat * Z * Z) :=
  let '(p1, w1) := require_whitespace_rev prefix in
  if negb w1 then None else
  let '(p2, n2) := eat_number_rev p1 in
  match n2 with
  | None => None
  | Some gen =>
      let '(p3, w3) := require_whitespace_rev p2 in
      if negb w3 then None else
      let '(p4, n4) := eat_number_rev p3 in
      match n4 with
      | None => None
      | Some id => if (0 <? id)%Z then Some (length p4, id, gen) else None
      end
  end.

(** [slice::starts_with]. *)
Fixpoint starts_with (p s : bytes) : bool :=
  match p, s with
  | [], _ => true
  | a :: p', b :: s' => beq a b && starts_with p' s'
  | _ :: _, [] => false
  end.

(** [slice::ends_with]. *)
Definition ends_with (p s : bytes) : bool := starts_with (rev p) (rev s).

(** src/renumber.rs:134-137 [validate_stream]. *)
Definition validate_stream (prefix : bytes) : bool :=
  ends_with (lit ">>") (fst (eat_suffix rn_whitespace prefix)).

(** [memchr::memmem::find] and [rfind] (dependency, by their documentation): the first and
    the last index at which the needle occurs. *)
Fixpoint memmem_find (needle s : bytes) : option nat :=
  if starts_with needle s then Some O
  else match s with
       | [] => None
       | _ :: r => option_map S (memmem_find needle r)
       end.
Fixpoint memmem_rfind (needle s : bytes) : option nat :=
  match s with
  | [] => if starts_with needle s then Some O else None
  | _ :: r =>
      match memmem_rfind needle r with
      | Some i => Some (S i)
      | None => if starts_with needle s then Some O else None
      end
  end.

(** Number of leading bytes satisfying a predicate (the [while] loop at
    src/renumber.rs:36-39). *)
Definition lead_len (p : byte -> bool) (s : bytes) : nat := eat_len p s.

(** src/renumber.rs:30-48 [extract_object].  The result of the first
    [require_whitespace_rev] is ignored by the code.  [slice\[..offset\]] cannot fail since
    [offset <= len]; [tail] walks back over white space before the last [endobj]. *)
Definition extract_object (slice : bytes) : option (Z * bytes) :=
  match memmem_find (lit "obj") slice with
  | None => None
  | Some offset =>
      let prefix := firstn offset slice in
      let '(prefix, _) := require_whitespace_rev prefix in
      match snd (eat_number_rev prefix) with
      | None => None
      | Some gen =>
          let head := (offset + 3 + lead_len rn_whitespace (skipn (offset + 3) slice))%nat in
          match memmem_rfind (lit "endobj") slice with
          | None => None
          | Some tail =>
              let tail := (tail - eat_len rn_whitespace (rev (firstn tail slice)))%nat in
              match slice_get slice head tail with
              | None => None
              | Some data => Some (gen, data)
              end
          end
      end
  end.

(** src/renumber.rs:82-90: bytes passed before the end of the line. *)
Fixpoint skip_comment (s : bytes) : nat :=
  match s with
  | [] => O
  | c :: r => if bmem c [x0a; x0d] then O else S (skip_comment r)
  end.

(** src/renumber.rs:93-104: the string loop, as the distance [seen] moves; a trailing
    backslash moves one past the end.  [depth] starts at 0 on the opening parenthesis. *)
Fixpoint skip_string (depth : Z) (s : bytes) : nat :=
  match s with
  | [] => O
  | c :: r =>
      if beq c x28 then S (skip_string (depth + 1) r)
      else if beq c x29 then (if (depth =? 1)%Z then O else S (skip_string (depth - 1) r))
      else if beq c x5c then
        match r with
        | [] => 2%nat
        | _ :: r' => S (S (skip_string depth r'))
        end
      else S (skip_string depth r)
  end.

Section Mapping.
  Context {S : Type} (mapping : S -> Z -> Z * S).

  (** src/renumber.rs:52-122 [patch_object]: the [while seen < slice.len()] loop.
      [fuel] bounds the iterations ([seen] grows in each); [None] means a slicing panic
      or fuel exhaustion (theorem C34: neither happens). *)
  Fixpoint patch_loop (fuel : nat) (slice : bytes) (seen written : nat) (b : buf) (s : S)
    : option (buf * S) :=
    match fuel with
    | O => None
    | Datatypes.S fuel =>
        match nth_error slice seen with
        | None =>
            match slice_get slice written (length slice) with
            | Some t => Some (extend t b, s)
            | None => None
            end
        | Some c =>
            if beq c x52 then
              match validate_ref (firstn seen slice) with
              | Some (head, id, gen) =>
                  let '(new, s) := mapping s id in
                  match slice_get slice written head with
                  | None => None
                  | Some t =>
                      let b := extend t b in
                      let b := push_int new b in
                      let b := push x20 b in
                      let b := push_int gen b in
                      let b := push x20 b in
                      let b := push x52 b in
                      patch_loop fuel slice (seen + 1) (seen + 1) b s
                  end
              | None => patch_loop fuel slice (seen + 1) written b s
              end
            else if beq c x25 then
              patch_loop fuel slice (seen + skip_comment (skipn seen slice) + 1) written b s
            else if beq c x28 then
              patch_loop fuel slice (seen + skip_string 0 (skipn seen slice) + 1) written b s
            else if beq c x73 && starts_with (lit "stream") (skipn seen slice)
                    && validate_stream (firstn seen slice)
            then
              match slice_get slice written (length slice) with
              | Some t => Some (extend t b, s)
              | None => None
              end
            else patch_loop fuel slice (seen + 1) written b s
        end
    end.

  Definition patch_object (slice : bytes) (b : buf) (s : S) : option (buf * S) :=
    patch_loop (Datatypes.S (length slice)) slice 0 0 b s.

  (** src/renumber.rs:10-25: the loop over the recorded offsets, on the source bytes
      [src] and the target's buffer, offsets and [pretty] setting. *)
  Fixpoint renumber_loop (src : bytes) (offsets : list (Z * Z)) (pretty : bool)
           (b : buf) (offs : list (Z * Z)) (s : S) : option (buf * list (Z * Z) * S) :=
    match offsets with
    | [] => Some (b, offs, s)
    | (id, offset) :: iter =>
        let '(new, s) := mapping s id in
        let stop := match iter with [] => blen src | (_, o) :: _ => o end in
        match slice_get src (Z.to_nat offset) (Z.to_nat stop) with
        | None => None
        | Some slice =>
            match extract_object slice with
            | None => renumber_loop src iter pretty b offs s
            | Some (gen, slice) =>
                let offs := offs ++ [(new, blen (inner b))] in
                let b := push_int new b in
                let b := push x20 b in
                let b := push_int gen b in
                let b := extend (lit " obj" ++ [x0a]) b in
                match patch_object slice b s with
                | None => None
                | Some (b, s) =>
                    let b := extend ([x0a] ++ lit "endobj" ++ [x0a]) b in
                    let b := if pretty then extend [x0a] b else b in
                    renumber_loop src iter pretty b offs s
                end
            end
        end
    end.
End Mapping.
