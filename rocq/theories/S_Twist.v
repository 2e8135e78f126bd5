(** The quadratic twist of edwards25519: -x^2 + y^2 = 1 + d' x^2 y^2 over the field with p elements, d' = 1/d = -121666/121665.  Every
    u-coordinate of X25519 is that of a point of edwards25519 or of this curve. *)
From Verif Require Import Base S_Field S_Edwards.

Local Open Scope F_scope.
Definition tw_d : F := fdiv (toF (-121666)) (toF 121665).
Definition tw_curve (P : point) : Prop :=
  let '(x, y) := P in y * y - x * x = 1 + tw_d * (x * x) * (y * y).
(** Neutral element, opposite, sum and multiples, as for edwards25519. *)
Definition tw_zero : point := (f0, f1).
Definition tw_opp (P : point) : point := let '(x, y) := P in (- x, y).
Definition tw_add (P Q : point) : point :=
  let '(x1, y1) := P in
  let '(x2, y2) := Q in
  ((x1 * y2 + x2 * y1) / (1 + tw_d * (x1 * x2 * (y1 * y2))),
   (y1 * y2 + x1 * x2) / (1 - tw_d * (x1 * x2 * (y1 * y2)))).
Definition tw_nmul (n : nat) (P : point) : point := Nat.iter n (tw_add P) tw_zero.
Definition tw_mul (n : Z) (P : point) : point :=
  if (n <? 0)%Z then tw_opp (tw_nmul (Z.to_nat (- n)) P) else tw_nmul (Z.to_nat n) P.
(** The u-coordinate, u = (1+y)/(y-1); division by zero gives zero. *)
Definition tw_u (P : point) : F := let '(x, y) := P in (1 + y) / (y - 1).
(** The prime factor of the number of points of the twist: 4 Lt + 8 L = 2 (p + 1). *)
Definition Lt : Z := 2 ^ 253 - 55484635554744707071703875581767296995.
