(** RFC 7748, section 5: the X25519 function. *)
From Verif Require Import Base S_Field.

(** decodeScalar25519: clear bits 0, 1, 2 and 255, set bit 254. *)
Definition decode_scalar (k : list Z) : Z :=
  let n := le_decode k in
  8 * ((n / 8) mod 2 ^ 251) + 2 ^ 254.
(** decodeUCoordinate with bits = 255: the top bit of the last byte is ignored;
    non-canonical values are accepted and reduced modulo p. *)
Definition decode_u (u : list Z) : F := toF (le_decode u mod 2 ^ 255).
(** encodeUCoordinate. *)
Definition encode_u (x : F) : list Z := le_encode 32 (fz x).

Local Open Scope F_scope.

Definition cswap {A} (c : bool) (x y : A) : A * A := if c then (y, x) else (x, y).

(** The loop body of RFC 7748, a24 = 121665. *)
Definition rfc_step (x_1 : F) (k_t : bool) (st : F * F * F * F * bool) : F * F * F * F * bool :=
  let '(x_2, z_2, x_3, z_3, swap) := st in
  let swap := xorb swap k_t in
  let '(x_2, x_3) := cswap swap x_2 x_3 in
  let '(z_2, z_3) := cswap swap z_2 z_3 in
  let swap := k_t in
  let A := x_2 + z_2 in
  let AA := A * A in
  let B := x_2 - z_2 in
  let BB := B * B in
  let E := AA - BB in
  let C := x_3 + z_3 in
  let D := x_3 - z_3 in
  let DA := D * A in
  let CB := C * B in
  let x_3 := (DA + CB) * (DA + CB) in
  let z_3 := x_1 * ((DA - CB) * (DA - CB)) in
  let x_2 := AA * BB in
  let z_2 := E * (AA + toF 121665 * E) in
  (x_2, z_2, x_3, z_3, swap).

(** [for t = n-1 down to 0]; k_t is bit [t] of [k]. *)
Fixpoint rfc_loop (x_1 : F) (k : Z) (n : nat) (st : F * F * F * F * bool) : F * F * F * F * bool :=
  match n with
  | O => st
  | S t => rfc_loop x_1 k t (rfc_step x_1 (Z.testbit k (Z.of_nat t)) st)
  end.

(** X25519 of a decoded scalar and a decoded u-coordinate. *)
Definition x25519_F (k : Z) (u : F) : F :=
  let '(x_2, z_2, x_3, z_3, swap) := rfc_loop u k 255 (f1, f0, u, f1, false) in
  let '(x_2, x_3) := cswap swap x_2 x_3 in
  let '(z_2, z_3) := cswap swap z_2 z_3 in
  x_2 * finv z_2.

Definition x25519 (k u : list Z) : list Z :=
  encode_u (x25519_F (decode_scalar k) (decode_u u)).
