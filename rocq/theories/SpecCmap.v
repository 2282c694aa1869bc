(** Specification: reading a ToUnicode character map (ISO 32000-1, 9.10.3; Adobe Technical Note 5014). *)

From Coq Require Import ZArith List Bool.
From Verif Require Import Bytes SpecLex SpecText.
Import ListNotations.
Local Open Scope Z_scope.

(** The [bfchar] sections: [n beginbfchar], strings, [endbfchar].  [prev]: the integer just before. *)
Fixpoint bf_sections (ts : list token) (prev : option Z) (cur : option (Z * list bytes)) : option (list (Z * list bytes)) :=
  match ts with
  | [] => match cur with None => Some [] | Some _ => None end
  | t :: ts =>
      match cur with
      | None =>
          match t with
          | TInt z => bf_sections ts (Some z) None
          | TKeyword k =>
              if bytes_eqb k (lit "beginbfchar") then
                match prev with Some n => bf_sections ts None (Some (n, [])) | None => None end
              else if bytes_eqb k (lit "endbfchar") then None
              else bf_sections ts None None
          | _ => bf_sections ts None None
          end
      | Some (n, acc) =>
          match t with
          | TStr s => bf_sections ts None (Some (n, s :: acc))
          | TKeyword k =>
              if bytes_eqb k (lit "endbfchar") then option_map (cons (n, rev acc)) (bf_sections ts None None) else None
          | _ => None
          end
      end
  end.

(** Pairs of a code and its text. *)
Fixpoint bf_entries (l : list bytes) : option (list (bytes * bytes)) :=
  match l with
  | [] => Some []
  | a :: b :: r => option_map (cons (a, b)) (bf_entries r)
  | _ => None
  end.

(** A code is a big-endian number, a text is UTF-16BE. *)
Definition code_val (s : bytes) : Z := fold_left (fun a c => 256 * a + bz c) s 0.
Definition utf16be_text (s : bytes) : option (list Z) :=
  match units16 s with Some us => utf16_decode us | None => None end.

Fixpoint all_some {A B} (f : A -> option B) (l : list A) : option (list B) :=
  match l with
  | [] => Some []
  | a :: r => match f a, all_some f r with Some b, Some bs => Some (b :: bs) | _, _ => None end
  end.

(** One section: the announced number of entries, and per entry the length of the code in bytes, the code
    and the text. *)
Definition section := (Z * list (nat * Z * list Z))%type.
Definition read_section (s : Z * list bytes) : option section :=
  match bf_entries (snd s) with
  | Some es =>
      match all_some (fun e => option_map (fun t => (List.length (fst e), code_val (fst e), t)) (utf16be_text (snd e))) es with
      | Some l => Some (fst s, l)
      | None => None
      end
  | None => None
  end.
Definition cmap_sections (s : bytes) : option (list section) :=
  match tokens s with
  | Some ts => match bf_sections ts None None with Some l => all_some read_section l | None => None end
  | None => None
  end.

(** The value that a definition [/key value def] gives to [key]. *)
Fixpoint definition_of (key : bytes) (ts : list token) : option token :=
  match ts with
  | TName k :: ((v :: TKeyword d :: _) as r) =>
      if bytes_eqb k key && bytes_eqb d (lit "def") then Some v else definition_of key r
  | _ :: r => definition_of key r
  | [] => None
  end.
Definition cmap_definition (key s : bytes) : option token :=
  match tokens s with Some ts => definition_of key ts | None => None end.

(** The code space ranges. *)
Fixpoint code_spaces (ts : list token) : list (bytes * bytes) :=
  match ts with
  | TInt 1 :: ((TKeyword k :: TStr lo :: TStr hi :: TKeyword k' :: r) as r') =>
      if bytes_eqb k (lit "begincodespacerange") && bytes_eqb k' (lit "endcodespacerange")
      then (lo, hi) :: code_spaces r else code_spaces r'
  | _ :: r => code_spaces r
  | [] => []
  end.
Definition cmap_code_spaces (s : bytes) : option (list (bytes * bytes)) :=
  option_map code_spaces (tokens s).

(** Text that cannot leave the comment line it is written to. *)
Definition one_line (s : bytes) : bool := forallb (fun c => negb (bmem c [x0a; x0d])) s.
