(** Polynomials over GF(2), and their product modulo a polynomial.
    A polynomial is a natural number: bit [i] is the coefficient of x^i; addition is
    [Z.lxor].  Does not use the model. *)
From Verif Require Import Base.

(** The product of [a] and [b], for [b] of degree less than [n]: the sum of [a * x^i] over the terms x^i of [b]. *)
Definition pmul (n : nat) (a b : Z) : Z :=
  fold_right Z.lxor 0 (map (fun i => if Z.testbit b (Z.of_nat i) then Z.shiftl a (Z.of_nat i) else 0) (seq 0 n)).

(** The remainder of [a], of degree less than [d + n], by [p], of degree [d]:
    cancel the terms x^(d+n-1), ..., x^d in turn. *)
Fixpoint pmod (d : Z) (p : Z) (n : nat) (a : Z) : Z :=
  match n with
  | O => a
  | S n' => pmod d p n' (if Z.testbit a (d + Z.of_nat n') then Z.lxor a (Z.shiftl p (Z.of_nat n')) else a)
  end.

(** Multiplication in GF(2)[x]/(p), [d] the degree of [p]. *)
Definition fmul (d : nat) (p a b : Z) : Z := pmod (Z.of_nat d) p d (pmul d a b).
