(** The twisted Edwards curve edwards25519 (RFC 7748, section 4.1; RFC 8032,
    section 5.1): -x^2 + y^2 = 1 + d x^2 y^2 over the field with p elements,
    d = -121665/121666, in affine coordinates. *)
From Verif Require Import Base S_Field.
Local Open Scope F_scope.

Definition point : Type := (F * F)%type.

Definition ed_d : F := fdiv (toF (-121665)) (toF 121666).

Definition on_curve (P : point) : Prop :=
  let '(x, y) := P in y * y - x * x = 1 + ed_d * (x * x) * (y * y).

(** Neutral element, opposite and sum. *)
Definition ed_zero : point := (f0, f1).
Definition ed_opp (P : point) : point := let '(x, y) := P in (- x, y).
Definition ed_add (P Q : point) : point :=
  let '(x1, y1) := P in
  let '(x2, y2) := Q in
  ((x1 * y2 + x2 * y1) / (1 + ed_d * (x1 * x2 * (y1 * y2))),
   (y1 * y2 + x1 * x2) / (1 - ed_d * (x1 * x2 * (y1 * y2)))).

(** [n]P: the sum of n copies of P; of |n| copies of -P when n is negative. *)
Definition ed_nmul (n : nat) (P : point) : point := Nat.iter n (ed_add P) ed_zero.
Definition ed_mul (n : Z) (P : point) : point :=
  if (n <? 0)%Z then ed_opp (ed_nmul (Z.to_nat (- n)) P) else ed_nmul (Z.to_nat n) P.

(** The base point: y = 4/5 and x the even root (RFC 8032, section 5.1, gives
    the value of x). *)
Definition ed_B : point :=
  (toF 15112221349535400772501151409588531511454012693041857206046113283949847762202,
   fdiv (toF 4) (toF 5)).

(** The order of the base point. *)
Definition L : Z := 2 ^ 252 + 27742317777372353535851937790883648493.

(** The birational map to curve25519 (RFC 7748, section 4.1): u = (1+y)/(1-y).
    Division by zero gives zero, so both points with x = 0 are sent to 0. *)
Definition mont_u (P : point) : F := let '(x, y) := P in (1 + y) / (1 - y).
