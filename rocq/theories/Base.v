(** Common vocabulary of the model: build modes, panics, fixed-width
    arithmetic, byte strings and slices.

    Nothing here models a particular function of the repository; it models
    the part of the Rust language and of [core]/[byteorder] that the
    repository relies on. *)
From Coq Require Export ZArith List Lia Bool.
Export ListNotations.
Open Scope Z_scope.

(** Build mode: [Checked] = overflow checks on (cargo's dev/test profile),
    [Unchecked] = overflow checks off (cargo's release profile). *)
Inductive build := Checked | Unchecked.

(** Result of a call that may panic. *)
Inductive res (A : Type) : Type :=
| Ok (a : A)
| Panic.
Arguments Ok {A} a.
Arguments Panic {A}.

Definition bind {A B} (r : res A) (k : A -> res B) : res B :=
  match r with Ok a => k a | Panic => Panic end.

Notation "'let!' x := e 'in' k" := (bind e (fun x => k))
  (at level 200, x pattern, e at level 100, k at level 200, right associativity).

Definition rmap {A B} (f : A -> B) (r : res A) : res B :=
  match r with Ok a => Ok (f a) | Panic => Panic end.

(** [assert!(c)]; also used for [assert_eq!]. *)
Definition assertb (c : bool) : res unit := if c then Ok tt else Panic.

(** Result [v] of a [+ - *] on an unsigned [w]-bit type. *)
Definition uchk (b : build) (w v : Z) : res Z :=
  if (0 <=? v) && (v <? 2 ^ w) then Ok v
  else match b with Checked => Panic | Unchecked => Ok (v mod 2 ^ w) end.

(** Two's complement reading of [v] in a signed [w]-bit type ([as iN]). *)
Definition swrap (w v : Z) : Z := (v + 2 ^ (w - 1)) mod 2 ^ w - 2 ^ (w - 1).

(** Result [v] of a [+ - *] on a signed [w]-bit type. *)
Definition schk (b : build) (w v : Z) : res Z :=
  if (- 2 ^ (w - 1) <=? v) && (v <? 2 ^ (w - 1)) then Ok v
  else match b with Checked => Panic | Unchecked => Ok (swrap w v) end.

(** [wrapping_add] on an unsigned [w]-bit type. *)
Definition wadd (w x y : Z) : Z := (x + y) mod 2 ^ w.

(** [<<] on an unsigned [w]-bit type (bits shifted out are lost, never panics
    for shift amounts below [w]). *)
Definition ushl (w x n : Z) : Z := Z.shiftl x n mod 2 ^ w.

(** [rotate_left], [rotate_right]. *)
Definition rotl (w x n : Z) : Z := Z.lor (ushl w x n) (Z.shiftr x (w - n)).
Definition rotr (w x n : Z) : Z := Z.lor (Z.shiftr x n) (ushl w x (w - n)).

(** [!x] on an unsigned [w]-bit type. *)
Definition unot (w x : Z) : Z := 2 ^ w - 1 - x.

(** Bytes and byte strings. *)
Definition byte_ok (x : Z) : Prop := 0 <= x < 256.
Definition bytes (l : list Z) : Prop := Forall byte_ok l.
Definition byte_okb (x : Z) : bool := (0 <=? x) && (x <? 256).
Definition bytesb (l : list Z) : bool := forallb byte_okb l.

(** Words of [w] bits. *)
Definition word_ok (w x : Z) : Prop := 0 <= x < 2 ^ w.

(** Length as an integer ([slice.len()], a [usize]). *)
Definition len {A} (l : list A) : Z := Z.of_nat (length l).

(** Little- and big-endian conversions ([byteorder], [from_be_bytes]). *)
Definition le_decode (l : list Z) : Z := fold_right (fun x acc => x + 256 * acc) 0 l.
Fixpoint le_encode (n : nat) (x : Z) : list Z :=
  match n with
  | O => []
  | S n' => x mod 256 :: le_encode n' (x / 256)
  end.
Definition be_decode (l : list Z) : Z := le_decode (rev l).
Definition be_encode (n : nat) (x : Z) : list Z := rev (le_encode n x).

(** [slice.chunks(n)], [n > 0]: consecutive pieces of [n] elements, the last
    one possibly shorter. *)
Fixpoint chunks_aux {A} (fuel n : nat) (l : list A) : list (list A) :=
  match fuel with
  | O => []
  | S f => match l with
           | [] => []
           | _ :: _ => firstn n l :: chunks_aux f n (skipn n l)
           end
  end.
Definition chunks {A} (n : nat) (l : list A) : list (list A) := chunks_aux (length l) n l.

(** Element-wise XOR of two zipped iterators. *)
Fixpoint zipwith {A B C} (f : A -> B -> C) (l : list A) (m : list B) : list C :=
  match l, m with
  | x :: l', y :: m' => f x y :: zipwith f l' m'
  | _, _ => []
  end.
Definition xorl (l m : list Z) : list Z := zipwith Z.lxor l m.

(** [a[i]] and [a[i] = v] on arrays. *)
Definition get (l : list Z) (i : nat) : Z := nth i l 0.
Fixpoint upd {A} (l : list A) (i : nat) (v : A) : list A :=
  match l, i with
  | [], _ => []
  | _ :: l', O => v :: l'
  | x :: l', S i' => x :: upd l' i' v
  end.

(** [dst[off..off + src.len()].copy_from_slice(src)]: panics when the range is
    not inside [dst]. *)
Definition write_slice {A} (dst : list A) (off : nat) (src : list A) : res (list A) :=
  if (off + length src <=? length dst)%nat
  then Ok (firstn off dst ++ src ++ skipn (off + length src) dst)
  else Panic.

(** [&l[a..b]]. *)
Definition slice {A} (l : list A) (a b : nat) : res (list A) :=
  if (a <=? b)%nat && (b <=? length l)%nat then Ok (firstn (b - a) (skipn a l)) else Panic.
