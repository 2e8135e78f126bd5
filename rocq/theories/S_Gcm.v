(** NIST SP 800-38D for 96-bit IVs, byte strings and 128-bit tags; does not use the model.
    The block cipher is a parameter. *)
From Verif Require Import Base S_Gf2.

(** ** Section 6.3: blocks as elements of GF(2^128).
    The bit string of a block is u_0 u_1 ... u_127, u_0 the most significant bit of its first byte; the block is
    the polynomial u_0 + u_1 x + ... + u_127 x^127, here the number whose bit [i] is u_i. *)
Definition block_bit (B : list Z) (i : nat) : bool := Z.testbit (nth (i / 8) B 0) (Z.of_nat (7 - i mod 8)).
Definition block_poly (B : list Z) : Z :=
  fold_right Z.add 0 (map (fun i => Z.b2z (block_bit B i) * 2 ^ Z.of_nat i) (seq 0 128)).
(** The block of a polynomial: byte [k] holds the bits 8k .. 8k+7, most significant bit first. *)
Definition poly_block (p : Z) : list Z :=
  map (fun k => fold_right Z.add 0
         (map (fun j => Z.b2z (Z.testbit p (Z.of_nat (8 * k + j))) * 2 ^ Z.of_nat (7 - j)) (seq 0 8))) (seq 0 16).
(** The modulus x^128 + x^7 + x^2 + x + 1. *)
Definition GCM_MODULUS : Z := 2 ^ 128 + 2 ^ 7 + 2 ^ 2 + 2 + 1.
Definition gf128_mul (a b : Z) : Z := fmul 128 GCM_MODULUS a b.

(** ** Section 6.4: GHASH_H(X_1 || ... || X_m): Y_0 = 0, Y_i = (Y_(i-1) + X_i) * H *)
Definition GHASH (H : list Z) (X : list (list Z)) : list Z :=
  poly_block (fold_left (fun Y Xi => gf128_mul (block_poly H) (Z.lxor Y (block_poly Xi))) X 0).

(** The string [l] padded with zero bytes to a whole number of blocks, as blocks. *)
Definition zero_pad (l : list Z) : list Z := l ++ repeat 0 ((16 - length l mod 16) mod 16).
Definition blocks (l : list Z) : list (list Z) := chunks 16 (zero_pad l).
(** [A] || 0^v || [C] || 0^u || [len(A)]_64 || [len(C)]_64, lengths in bits *)
Definition ghash_input (A C : list Z) : list (list Z) :=
  blocks A ++ blocks C ++ [be_encode 8 (8 * len A) ++ be_encode 8 (8 * len C)].

(** ** Sections 6.2, 6.5, 7.1 *)
(** inc_32 on a 16-byte block *)
Definition inc32 (X : list Z) : list Z :=
  firstn 12 X ++ be_encode 4 ((be_decode (skipn 12 X) + 1) mod 2 ^ 32).
(** GCTR: the blocks are encrypted with ICB, inc32 ICB, inc32 (inc32 ICB), ... *)
Definition GCTR (CIPH : list Z -> list Z) (ICB : list Z) (X : list Z) : list Z :=
  concat (map (fun '(i, Xi) => xorl Xi (CIPH (Nat.iter i inc32 ICB)))
              (combine (seq 0 (length (chunks 16 X))) (chunks 16 X))).
Definition J0 (IV : list Z) : list Z := IV ++ [0; 0; 0; 1].
(** GCM-AE: (ciphertext, tag) *)
Definition gcm_ciphertext (CIPH : list Z -> list Z) (IV P : list Z) : list Z := GCTR CIPH (inc32 (J0 IV)) P.
Definition gcm_auth_tag (CIPH : list Z -> list Z) (IV A C : list Z) : list Z :=
  GCTR CIPH (J0 IV) (GHASH (CIPH (repeat 0 16)) (ghash_input A C)).
