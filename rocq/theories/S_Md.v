(** What a collision of the SHA-2 compression function met while hashing two messages is; does not use the model. *)
From Verif Require Import Base S_Sha2 S_Hmac.

(** The padded message as blocks. *)
Definition padded_blocks (V : variant) (msg : list Z) : list (list Z) := chunks (block_bytes V) (pad_with V (8 * len msg) msg).
(** The chaining value after some blocks. *)
Definition chain (V : variant) (bs : list (list Z)) : list Z := fold_left (compress V) bs (IV V).
(** The bytes of a final chaining value that make up the digest. *)
Definition digest_part (V : variant) (s : list Z) : list Z := firstn (digest_bytes V) (flat_map (be_encode (wbytes V)) s).

(** Somewhere in the two computations the compression function is applied to two different pairs (chaining value, block)
    and gives the same result. *)
Definition collide (V : variant) (bs bs' : list (list Z)) : Prop :=
  exists pre B post pre' B' post', bs = pre ++ B :: post /\ bs' = pre' ++ B' :: post' /\
    (chain V pre, B) <> (chain V pre', B') /\ compress V (chain V pre) B = compress V (chain V pre') B'.

(** What FIPS 180-4 (section 5.1) appends to a message of [n] bytes: one bit, zeros, the length in bits. *)
Definition glue (V : variant) (n : nat) : list Z :=
  [0x80] ++ repeat 0 (zeros_needed V n) ++ be_encode (2 * wbytes V) (8 * Z.of_nat n).
(** What anyone can compute from a digest [d] of an unknown message of [n] bytes and a suffix [x]: go on hashing from the digest. *)
Definition extend (V : variant) (d : list Z) (n : nat) (x : list Z) : list Z :=
  let total := (n + length (glue V n) + length x)%nat in
  digest_part V (fold_left (compress V) (chunks (block_bytes V) (x ++ glue V total)) (map be_decode (chunks (wbytes V) d))).

(** The two strings HMAC (RFC 2104) hashes. *)
Definition inner_input (V : variant) (key msg : list Z) : list Z :=
  xorl (hmac_key (SHA V) (block_bytes V) key) (ipad (block_bytes V)) ++ msg.
Definition outer_input (V : variant) (key msg : list Z) : list Z :=
  xorl (hmac_key (SHA V) (block_bytes V) key) (opad (block_bytes V)) ++ SHA V (inner_input V key msg).
