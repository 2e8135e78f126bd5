(** The integers modulo p = 2^255 - 19, as canonical representatives. *)
From Verif Require Import Base.
From Coq Require Import Eqdep_dec Ring.

Definition p : Z := 2 ^ 255 - 19.

(** An element is an integer equal to its own remainder modulo [p]. *)
Record F := mkF { fz : Z; fz_ok : (fz mod p =? fz) = true }.

Lemma toF_ok (z : Z) : ((z mod p) mod p =? z mod p) = true.
Proof. apply Z.eqb_eq. apply Z.mod_mod. discriminate. Qed.
(** The class of an integer. *)
Definition toF (z : Z) : F := mkF (z mod p) (toF_ok z).

Definition f0 : F := toF 0.
Definition f1 : F := toF 1.
Definition fadd (a b : F) : F := toF (fz a + fz b).
Definition fsub (a b : F) : F := toF (fz a - fz b).
Definition fmul (a b : F) : F := toF (fz a * fz b).
Definition fopp (a : F) : F := toF (- fz a).

(** [a ^ n] for [n > 0] by repeated squaring; [a ^ n = 1] for [n <= 0]. *)
Fixpoint fpow_pos (a : F) (n : positive) : F :=
  match n with
  | xH => a
  | xO m => let r := fpow_pos a m in fmul r r
  | xI m => let r := fpow_pos a m in fmul a (fmul r r)
  end.
Definition fpow (a : F) (n : Z) : F :=
  match n with Zpos m => fpow_pos a m | _ => f1 end.

(** Inverse as in RFC 7748 and RFC 8032: the (p-2)-th power; it sends 0 to 0. *)
Definition finv (a : F) : F := fpow a (p - 2).
Definition fdiv (a b : F) : F := fmul a (finv b).

Definition feqb (a b : F) : bool := fz a =? fz b.

Declare Scope F_scope.
Delimit Scope F_scope with F.
Infix "+" := fadd : F_scope.
Infix "-" := fsub : F_scope.
Infix "*" := fmul : F_scope.
Infix "/" := fdiv : F_scope.
Notation "- a" := (fopp a) : F_scope.
Notation "0" := f0 : F_scope.
Notation "1" := f1 : F_scope.
