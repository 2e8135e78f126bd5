(** RFC 8439: ChaCha20, Poly1305 and the AEAD construction.
    Written from the RFC; does not use the model. *)
From Verif Require Import Base.

(** ** Section 2.1: the quarter round *)
Definition add32 (x y : Z) : Z := (x + y) mod 2 ^ 32.
Definition rotl32 (x n : Z) : Z := (x * 2 ^ n) mod 2 ^ 32 + x / 2 ^ (32 - n).

Definition QR (v : Z * Z * Z * Z) : Z * Z * Z * Z :=
  let '(a, b, c, d) := v in
  let a := add32 a b in let d := rotl32 (Z.lxor d a) 16 in
  let c := add32 c d in let b := rotl32 (Z.lxor b c) 12 in
  let a := add32 a b in let d := rotl32 (Z.lxor d a) 8 in
  let c := add32 c d in let b := rotl32 (Z.lxor b c) 7 in
  (a, b, c, d).

(** ** Section 2.2: on the state, a vector of 16 words indexed from 0 *)
Definition cstate := nat -> Z.
Definition set (s : cstate) (i : nat) (x : Z) : cstate := fun j => if (j =? i)%nat then x else s j.
Definition QUARTERROUND (x y z w : nat) (s : cstate) : cstate :=
  let '(a, b, c, d) := QR (s x, s y, s z, s w) in
  set (set (set (set s x a) y b) z c) w d.

(** ** Section 2.3: the block function *)
Definition column_rounds (s : cstate) : cstate :=
  QUARTERROUND 3 7 11 15 (QUARTERROUND 2 6 10 14 (QUARTERROUND 1 5 9 13 (QUARTERROUND 0 4 8 12 s))).
Definition diagonal_rounds (s : cstate) : cstate :=
  QUARTERROUND 3 4 9 14 (QUARTERROUND 2 7 8 13 (QUARTERROUND 1 6 11 12 (QUARTERROUND 0 5 10 15 s))).
Definition double_round (s : cstate) : cstate := diagonal_rounds (column_rounds s).

(** The [i]-th little-endian 32-bit word of a byte string. *)
Definition le32_at (l : list Z) (i : nat) : Z := le_decode (firstn 4 (skipn (4 * i) l)).

Definition init_state (key : list Z) (counter : Z) (nonce : list Z) : cstate := fun i =>
  if (i <? 4)%nat then nth i [0x61707865; 0x3320646e; 0x79622d32; 0x6b206574] 0
  else if (i <? 12)%nat then le32_at key (i - 4)
  else if (i =? 12)%nat then counter
  else le32_at nonce (i - 13).

Definition chacha20_block (key : list Z) (counter : Z) (nonce : list Z) : list Z :=
  let s0 := init_state key counter nonce in
  let s := Nat.iter 10 double_round s0 in
  flat_map (fun i => le_encode 4 (add32 (s i) (s0 i))) (seq 0 16).

(** ** Section 2.4: [n] blocks of keystream starting at block [counter] *)
Definition chacha20_keystream (key nonce : list Z) (counter : Z) (n : nat) : list Z :=
  concat (map (fun j => chacha20_block key (counter + Z.of_nat j) nonce) (seq 0 n)).
(** "The key stream is serialized and XORed with the plaintext." *)
Definition chacha20_encrypt (key : list Z) (counter : Z) (nonce plaintext : list Z) : list Z :=
  xorl plaintext (chacha20_keystream key nonce counter ((length plaintext + 63) / 64)).

(** Byte number [n] of the keystream that starts at block 0. *)
Definition keystream_byte (key nonce : list Z) (n : Z) : Z :=
  nth (Z.to_nat (n mod 64)) (chacha20_block key (n / 64) nonce) 0.

(** ** Section 2.5: Poly1305 *)
Definition P1305 : Z := 2 ^ 130 - 5.
Definition clamp (r : Z) : Z := Z.land r 0x0ffffffc0ffffffc0ffffffc0fffffff.
(** The accumulator after the whole message; each block gets one more byte 1. *)
Definition poly1305_acc (r : Z) (msg : list Z) : Z :=
  fold_left (fun acc blk => (r * (acc + le_decode (blk ++ [1]))) mod P1305) (chunks 16 msg) 0.
Definition poly1305_mac (key msg : list Z) : list Z :=
  let r := clamp (le_decode (firstn 16 key)) in
  let s := le_decode (skipn 16 key) in
  le_encode 16 (poly1305_acc r msg + s).

(** ** Section 2.8: the AEAD construction *)
Definition pad16 (x : list Z) : list Z := repeat 0 ((16 - length x mod 16) mod 16).
Definition mac_data (aad ciphertext : list Z) : list Z :=
  aad ++ pad16 aad ++ ciphertext ++ pad16 ciphertext
  ++ le_encode 8 (len aad) ++ le_encode 8 (len ciphertext).
Definition one_time_key (key nonce : list Z) : list Z := firstn 32 (chacha20_block key 0 nonce).
Definition aead_ciphertext (key nonce plaintext : list Z) : list Z := chacha20_encrypt key 1 nonce plaintext.
Definition rfc8439_tag (key nonce aad ciphertext : list Z) : list Z :=
  poly1305_mac (one_time_key key nonce) (mac_data aad ciphertext).
(** The Poly1305 accumulator before the final addition of s. *)
Definition rfc8439_acc (key nonce aad ciphertext : list Z) : Z :=
  poly1305_acc (clamp (le_decode (firstn 16 (one_time_key key nonce)))) (mac_data aad ciphertext).
(** Not in the RFC: what the program adds to s instead of a small accumulator [v] when its final reduction goes wrong:
    byte by byte, bits 1 to 7 of v - 5 and bit 0 of v. *)
Definition faulty_acc (v : Z) : Z :=
  le_decode (zipwith (fun low top => 2 * (top / 2) + low mod 2) (le_encode 16 v) (le_encode 16 (v - 5))).
Definition faulty_tag (key nonce aad ciphertext : list Z) : list Z :=
  le_encode 16 (faulty_acc (rfc8439_acc key nonce aad ciphertext) + le_decode (skipn 16 (one_time_key key nonce))).

(** A key and a nonce of the right type and length. *)
Definition chacha_key (k : list Z) : Prop := length k = 32%nat /\ bytes k.
Definition chacha_nonce (n : list Z) : Prop := length n = 12%nat /\ bytes n.
(** Byte strings a Rust slice can hold (the length is a [usize] of at most 64 bits). *)
Definition is_slice (l : list Z) : Prop := bytes l /\ len l < 2 ^ 64.
