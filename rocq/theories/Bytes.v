(** Bytes and byte strings.

    [u8] is the standard library's 256-constructor type [byte]; a Rust [&[u8]] or
    [Vec<u8>] is a [list byte].  Nothing in this file models code of /repo: it is the
    vocabulary shared by the model and the specification. *)

From Coq Require Import ZArith List Lia Bool.
From Coq Require Export Strings.Byte.
From Coq Require Import Strings.String.
Export Strings.String.StringSyntax.
Import ListNotations.
Local Open Scope Z_scope.

Notation bytes := (list byte).

(** ASCII literal as a byte string. *)
Definition lit (x : string) : bytes := list_byte_of_string x.
Arguments lit x%string.

(** The number of a byte (0..255), and the byte of a number (modulo 256). *)
Definition bz (b : byte) : Z := Z.of_N (Byte.to_N b).
Definition zb (z : Z) : byte :=
  match Byte.of_N (Z.to_N (z mod 256)) with Some b => b | None => x00 end.

Lemma bz_range b : 0 <= bz b < 256.
Proof. destruct b; cbv; split; congruence. Qed.

Lemma zb_bz b : zb (bz b) = b.
Proof. destruct b; reflexivity. Qed.

Lemma bz_inj a b : bz a = bz b -> a = b.
Proof. intro H. rewrite <- (zb_bz a), <- (zb_bz b), H. reflexivity. Qed.

Lemma bz_zb z : bz (zb z) = z mod 256.
Proof.
  unfold zb, bz.
  assert (H : 0 <= z mod 256 < 256) by (apply Z.mod_pos_bound; lia).
  remember (z mod 256) as n eqn:E. clear E.
  destruct (Byte.of_N (Z.to_N n)) as [b|] eqn:Eb.
  - apply Byte.to_of_N in Eb. rewrite Eb. lia.
  - apply Byte.of_N_None_iff in Eb. lia.
Qed.

Lemma bz_zb_small z : 0 <= z < 256 -> bz (zb z) = z.
Proof. intro H. rewrite bz_zb. apply Z.mod_small. exact H. Qed.

Definition beq (a b : byte) : bool := Byte.eqb a b.

Lemma beq_spec a b : beq a b = true <-> a = b.
Proof.
  unfold beq. split.
  - intro H. apply Byte.byte_dec_bl; exact H.
  - intro H. subst. apply Byte.byte_dec_lb; reflexivity.
Qed.

Lemma beq_refl a : beq a a = true.
Proof. apply beq_spec. reflexivity. Qed.

Lemma beq_neq a b : beq a b = false <-> a <> b.
Proof.
  split; intro H.
  - intro E. apply beq_spec in E. congruence.
  - destruct (beq a b) eqn:E; [apply beq_spec in E; congruence | reflexivity].
Qed.

(** Equality of byte strings. *)
Fixpoint bytes_eqb (a b : bytes) : bool :=
  match a, b with
  | [], [] => true
  | x :: a, y :: b => beq x y && bytes_eqb a b
  | _, _ => false
  end.

Lemma bytes_eqb_spec a b : bytes_eqb a b = true <-> a = b.
Proof.
  revert b. induction a as [|x a IH]; intros [|y b]; cbn [bytes_eqb]; try (split; [discriminate|congruence]); [split; reflexivity|].
  rewrite andb_true_iff, beq_spec, IH. split; [intros [-> ->]; reflexivity|intro H; injection H; auto].
Qed.

(** Membership of a byte in a finite set of bytes. *)
Definition bmem (b : byte) (s : bytes) : bool := existsb (beq b) s.

(** ASCII digit test. *)
Definition is_digit (b : byte) : bool := (48 <=? bz b) && (bz b <=? 57).

(** Length of a byte string as an integer ([usize]). *)
Definition blen (s : bytes) : Z := Z.of_nat (List.length s).

Lemma blen_nonneg s : 0 <= blen s.
Proof. unfold blen. lia. Qed.

Lemma blen_app a b : blen (a ++ b) = blen a + blen b.
Proof. unfold blen. rewrite app_length. lia. Qed.

Lemma blen_cons a b : blen (a :: b) = 1 + blen b.
Proof. unfold blen. cbn [List.length]. lia. Qed.

Lemma blen_nil : blen [] = 0.
Proof. reflexivity. Qed.

(** Last byte of a buffer ([slice::last]). *)
Fixpoint last_byte (s : bytes) : option byte :=
  match s with
  | [] => None
  | [b] => Some b
  | _ :: r => last_byte r
  end.

Lemma last_byte_app s b : last_byte (s ++ [b]) = Some b.
Proof.
  induction s as [|a s IH]; [reflexivity|].
  cbn [app last_byte]. destruct (s ++ [b]) eqn:E; [destruct s; discriminate | exact IH].
Qed.

Lemma last_byte_app_ne s t : t <> [] -> last_byte (s ++ t) = last_byte t.
Proof.
  intro H. destruct (exists_last H) as [t' [b Eb]]. subst t.
  rewrite app_assoc, !last_byte_app. reflexivity.
Qed.
