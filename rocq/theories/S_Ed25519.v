(** RFC 8032, section 5.1: Ed25519. *)
From Verif Require Import Base S_Field S_Edwards S_X25519 S_Sha2.

(** SHA-512 of FIPS 180-4. *)
Definition H512 (m : list Z) : list Z := SHA spec_sha512 m.

(** Section 5.1.2: the 255 low bits are the y-coordinate, the most significant
    bit is the least significant bit of the x-coordinate. *)
Definition ed_encode (P : point) : list Z :=
  le_encode 32 (fz (snd P) + 2 ^ 255 * (fz (fst P) mod 2)).

(** Section 5.1.3: [s] decodes to [P].  The y-coordinate must be below p; x is
    the root of x^2 = (y^2 - 1) / (d y^2 + 1) whose parity is the top bit, so
    x = 0 with the top bit set is a failure. *)
Definition rfc_decodes (s : list Z) (P : point) : Prop :=
  length s = 32%nat /\ le_decode s mod 2 ^ 255 < p /\
  on_curve P /\ fz (snd P) = le_decode s mod 2 ^ 255 /\ fz (fst P) mod 2 = le_decode s / 2 ^ 255.

(** The laxer decoding of the original NaCl/ref10 code: y is taken modulo p, and
    the sign bit is ignored when x = 0. *)
Definition lax_decodes (s : list Z) (P : point) : Prop :=
  length s = 32%nat /\
  on_curve P /\ snd P = toF (le_decode s mod 2 ^ 255) /\
  (fst P = f0 \/ fz (fst P) mod 2 = le_decode s / 2 ^ 255).

(** Section 5.1.5: the hash of the secret key, its pruned first half, its second
    half, and the public key. *)
Definition ed_secret_scalar (sk : list Z) : Z := decode_scalar (firstn 32 (H512 sk)).
Definition ed_prefix (sk : list Z) : list Z := skipn 32 (H512 sk).
Definition rfc_public_key (sk : list Z) : list Z := ed_encode (ed_mul (ed_secret_scalar sk) ed_B).

(** Section 5.1.6. *)
Definition rfc_sign (msg sk : list Z) : list Z :=
  let A := rfc_public_key sk in
  let r := le_decode (H512 (ed_prefix sk ++ msg)) in
  let R := ed_encode (ed_mul r ed_B) in
  let k := le_decode (H512 (R ++ A ++ msg)) in
  let S := (r + k * ed_secret_scalar sk) mod L in
  R ++ le_encode 32 S.

(** Section 5.1.7, with the group equation checked without the cofactor:
    [S]B = R + [k]A. *)
Definition rfc_verifies (msg sig pk : list Z) : Prop :=
  length sig = 64%nat /\
  exists R A,
    let S := le_decode (skipn 32 sig) in
    let k := le_decode (H512 (firstn 32 sig ++ pk ++ msg)) in
    rfc_decodes (firstn 32 sig) R /\ rfc_decodes pk A /\ 0 <= S < L /\
    ed_mul S ed_B = ed_add R (ed_mul k A).

(** The check of the original NaCl/ref10 code, which [verify] follows: S only
    has to be below 2^253, the public key is decoded laxly, k is reduced modulo
    L before it multiplies A, and R is compared as a string, not as a point. *)
Definition ref10_verifies (msg sig pk : list Z) : Prop :=
  length sig = 64%nat /\
  exists A,
    let S := le_decode (skipn 32 sig) in
    let k := le_decode (H512 (firstn 32 sig ++ pk ++ msg)) mod L in
    lax_decodes pk A /\ S < 2 ^ 253 /\
    ed_encode (ed_add (ed_mul S ed_B) (ed_opp (ed_mul k A))) = firstn 32 sig.

(** Section 5.1.7 as written, with the cofactor: [8][S]B = [8]R + [8][k]A. *)
Definition rfc_verifies_cofactored (msg sig pk : list Z) : Prop :=
  length sig = 64%nat /\
  exists R A,
    let S := le_decode (skipn 32 sig) in
    let k := le_decode (H512 (firstn 32 sig ++ pk ++ msg)) in
    rfc_decodes (firstn 32 sig) R /\ rfc_decodes pk A /\ 0 <= S < L /\
    ed_mul 8 (ed_mul S ed_B) = ed_add (ed_mul 8 R) (ed_mul 8 (ed_mul k A)).
