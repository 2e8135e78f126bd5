(** Leakage model: what an observer of control flow and memory addresses sees.

    The files M_Ct*.v transcribe the same Rust functions as M_*.v, with two
    changes.

    - The contents of every buffer passed to the library (keys, messages,
      nonces, tags, outputs) are words of an abstract type [W], which can only
      be handled through the operations of [WordOps].  No operation turns a
      word into a [nat], a [Z] or a [bool], except [w_is_zero], [w_uchk] and
      [w_schk], which record in the trace what they disclose.  So a function
      with no [M] in its type cannot branch on a word, index with it, or
      shift by it.  Lengths, loop counters, indices and offsets have type
      [nat] or [Z].

    - Functions run in the monad [M], which records every branch taken
      (including assertions, loop exits, overflow checks) and every array
      index computed in such a function.

    The programs are proved to compute the same results as the model of
    M_*.v when [W] is instantiated with [Z] ([Zops]).  The timing of single word
    operations is taken not to depend on their operands. *)
From Verif Require Import Base.

Inductive event :=
| EBranch (c : bool)   (* a condition and its outcome *)
| EIndex (i : nat).    (* an array index or the bound of a slice *)

(** A computation: the trace it leaves and its result. *)
Definition M (A : Type) : Type := (list event * res A)%type.
Definition leak {A} (m : M A) : list event := fst m.
Definition result {A} (m : M A) : res A := snd m.

Definition ret {A} (a : A) : M A := ([], Ok a).
Definition fail {A} : M A := ([], Panic).
Definition bindM {A B} (m : M A) (k : A -> M B) : M B :=
  match snd m with
  | Ok a => (fst m ++ fst (k a), snd (k a))
  | Panic => (fst m, Panic)
  end.
Notation "'let*' x := e 'in' k" := (bindM e (fun x => k))
  (at level 200, x pattern, e at level 100, k at level 200, right associativity).
Definition tick (e : event) : M unit := ([e], Ok tt).

(** [if c { x } else { y }] (also loop conditions and [&&]). *)
Definition branch {A} (c : bool) (x y : M A) : M A :=
  let* _ := tick (EBranch c) in if c then x else y.
(** [assert!(c)], [assert_eq!]. *)
Definition assertM (c : bool) : M unit := branch c (ret tt) fail.

(** Overflow check on a public integer (a length or a counter). *)
Definition p_uchk (b : build) (w v : Z) : M Z :=
  match b with
  | Checked => branch ((0 <=? v) && (v <? 2 ^ w)) (ret v) fail
  | Unchecked => ret (v mod 2 ^ w)
  end.

(** Operations on secret words.  Shift and rotation amounts, widths and
    encoding lengths are public. *)
Record WordOps (W : Type) := {
  w_lit : Z -> W;                        (* a literal or public integer *)
  w_xor : W -> W -> W;
  w_and : W -> W -> W;
  w_or : W -> W -> W;
  w_shr : W -> Z -> W;                   (* [>>] *)
  w_ushl : Z -> W -> Z -> W;             (* [<<] on a [w]-bit unsigned type *)
  w_sshl : Z -> W -> Z -> W;             (* [<<] on a [w]-bit signed type *)
  w_rotl : Z -> W -> Z -> W;
  w_rotr : Z -> W -> Z -> W;
  w_not : Z -> W -> W;                   (* [!] on a [w]-bit unsigned type *)
  w_wadd : Z -> W -> W -> W;             (* [wrapping_add] *)
  w_wsub : Z -> W -> W -> W;             (* [wrapping_sub] *)
  w_wneg : Z -> W -> W;                  (* [wrapping_neg] *)
  w_uas : Z -> W -> W;                   (* [as uN] *)
  w_sas : Z -> W -> W;                   (* [as iN] *)
  w_add : W -> W -> W;                   (* exact result of [+], to be checked *)
  w_sub : W -> W -> W;
  w_mul : W -> W -> W;
  w_neg : W -> W;
  w_le_decode : list W -> W;             (* [read_uNN] etc. *)
  w_be_decode : list W -> W;
  w_le_encode : nat -> W -> list W;
  w_be_encode : nat -> W -> list W;
  w_uchk : build -> Z -> W -> M W;       (* overflow check, unsigned [w]-bit *)
  w_schk : build -> Z -> W -> M W;       (* overflow check, signed [w]-bit *)
  w_is_zero : W -> M bool }.             (* discloses whether the word is 0 *)

(** The operations on integers.  A failed or passed overflow check is a branch
    when the checks are compiled in, and nothing at all otherwise. *)
Definition z_uchk (b : build) (w v : Z) : M Z :=
  match b with
  | Checked => branch ((0 <=? v) && (v <? 2 ^ w)) (ret v) fail
  | Unchecked => ret (v mod 2 ^ w)
  end.
Definition z_schk (b : build) (w v : Z) : M Z :=
  match b with
  | Checked => branch ((- 2 ^ (w - 1) <=? v) && (v <? 2 ^ (w - 1))) (ret v) fail
  | Unchecked => ret (swrap w v)
  end.
Definition z_is_zero (v : Z) : M bool := ([EBranch (v =? 0)], Ok (v =? 0)).

Definition Zops : WordOps Z := {|
  w_lit := fun n => n;
  w_xor := Z.lxor;
  w_and := Z.land;
  w_or := Z.lor;
  w_shr := Z.shiftr;
  w_ushl := ushl;
  w_sshl := fun w x k => swrap w (Z.shiftl x k);
  w_rotl := rotl;
  w_rotr := rotr;
  w_not := unot;
  w_wadd := wadd;
  w_wsub := fun w x y => (x - y) mod 2 ^ w;
  w_wneg := fun w x => (- x) mod 2 ^ w;
  w_uas := fun w x => x mod 2 ^ w;
  w_sas := swrap;
  w_add := Z.add;
  w_sub := Z.sub;
  w_mul := Z.mul;
  w_neg := Z.opp;
  w_le_decode := le_decode;
  w_be_decode := be_decode;
  w_le_encode := le_encode;
  w_be_encode := be_encode;
  w_uchk := z_uchk;
  w_schk := z_schk;
  w_is_zero := z_is_zero |}.
Arguments w_lit {W}.
Arguments w_xor {W}.
Arguments w_and {W}.
Arguments w_or {W}.
Arguments w_shr {W}.
Arguments w_ushl {W}.
Arguments w_sshl {W}.
Arguments w_rotl {W}.
Arguments w_rotr {W}.
Arguments w_not {W}.
Arguments w_wadd {W}.
Arguments w_wsub {W}.
Arguments w_wneg {W}.
Arguments w_uas {W}.
Arguments w_sas {W}.
Arguments w_add {W}.
Arguments w_sub {W}.
Arguments w_mul {W}.
Arguments w_neg {W}.
Arguments w_le_decode {W}.
Arguments w_be_decode {W}.
Arguments w_le_encode {W}.
Arguments w_be_encode {W}.
Arguments w_uchk {W}.
Arguments w_schk {W}.
Arguments w_is_zero {W}.

(** [dst[off..off + src.len()].copy_from_slice(src)] and [&l[a..b]], as in
    Base.v, recording the bounds. *)
Definition c_write_slice {A} (dst : list A) (off : nat) (src : list A) : M (list A) :=
  let* _ := tick (EIndex off) in
  let* _ := tick (EIndex (off + length src)) in
  branch (off + length src <=? length dst)%nat
    (ret (firstn off dst ++ src ++ skipn (off + length src) dst)) fail.
Definition c_slice {A} (l : list A) (a b : nat) : M (list A) :=
  let* _ := tick (EIndex a) in
  let* _ := tick (EIndex b) in
  branch ((a <=? b)%nat && (b <=? length l)%nat) (ret (firstn (b - a) (skipn a l))) fail.
(** [l[i]] with its bounds check, and [&l[n..]]. *)
Definition c_idx {A} (l : list A) (i : nat) : M A :=
  let* _ := tick (EIndex i) in
  match nth_error l i with Some v => ret v | None => fail end.
Definition c_from {A} (l : list A) (n : nat) : M (list A) :=
  let* _ := tick (EIndex n) in
  branch (n <=? length l)%nat (ret (skipn n l)) fail.

(** [l[i]] where [i] is a literal or loop counter in range; [l ^ m]. *)
Definition c_get {W} (ops : WordOps W) (l : list W) (i : nat) : W := nth i l (w_lit ops 0).
Definition c_xorl {W} (ops : WordOps W) (l m : list W) : list W := zipwith (w_xor ops) l m.
