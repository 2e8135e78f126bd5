(** What the functions built on SHA-2 compute without overflow checks, for inputs of every length.

    RFC 8032's signing and the check of ref10 with another hash for the messages: SHA-512 whose 128-bit length field holds
    the number of bits modulo 2^64 only.  Below 2^61 bytes it is SHA-512 itself. *)
From Verif Require Import Base S_Field S_Edwards S_X25519 S_Sha2 S_Ed25519.

(** A SHA-2 function with the number of bits modulo 2^64 in the length field. *)
Definition SHAw (V : variant) (m : list Z) : list Z := hash_with V ((8 * len m) mod 2 ^ 64) m.
Definition H512w (m : list Z) : list Z := SHAw spec_sha512 m.

(** [rfc_sign] with [H512w] for the two hashes of the message. *)
Definition long_sign (msg sk : list Z) : list Z :=
  let A := rfc_public_key sk in
  let r := le_decode (H512w (ed_prefix sk ++ msg)) in
  let R := ed_encode (ed_mul r ed_B) in
  let k := le_decode (H512w (R ++ A ++ msg)) in
  let S := (r + k * ed_secret_scalar sk) mod L in
  R ++ le_encode 32 S.

(** [ref10_verifies] with [H512w]. *)
Definition long_verifies (msg sig pk : list Z) : Prop :=
  length sig = 64%nat /\
  exists A,
    let S := le_decode (skipn 32 sig) in
    let k := le_decode (H512w (firstn 32 sig ++ pk ++ msg)) mod L in
    lax_decodes pk A /\ S < 2 ^ 253 /\
    ed_encode (ed_add (ed_mul S ed_B) (ed_opp (ed_mul k A))) = firstn 32 sig.
