(** RFC 2104 (HMAC) and RFC 5869 (HKDF) over an arbitrary hash function. *)
From Verif Require Import Base S_Sha2.

Section Hmac.
(** [hash] with block size [B] bytes. *)
Variable hash : list Z -> list Z.
Variable B : nat.

(** RFC 2104 section 2: keys longer than B bytes are hashed first; then zeros
    are appended to make a B byte string. *)
Definition hmac_key (key : list Z) : list Z :=
  let k := if (B <? length key)%nat then hash key else key in
  k ++ repeat 0 (B - length k).
Definition ipad : list Z := repeat 0x36 B.
Definition opad : list Z := repeat 0x5C B.
(** H(K XOR opad, H(K XOR ipad, text)) *)
Definition HMAC (key text : list Z) : list Z :=
  let K := hmac_key key in
  hash (xorl K opad ++ hash (xorl K ipad ++ text)).

(** RFC 5869 section 2.2. *)
Definition HKDF_Extract (salt ikm : list Z) : list Z := HMAC salt ikm.
(** RFC 5869 section 2.3: T(0) = "", T(i) = HMAC(PRK, T(i-1) | info | i). *)
Fixpoint HKDF_T (prk info : list Z) (i : nat) : list Z :=
  match i with
  | O => []
  | S i' => HMAC prk (HKDF_T prk info i' ++ info ++ [Z.of_nat i])
  end.
(** T = T(1) | ... | T(n); OKM = first L octets of T, for any [n] with
    [n * HashLen >= L]; the RFC takes [n = ceil(L/HashLen)]. *)
Definition HKDF_Expand (HashLen : nat) (prk info : list Z) (L : nat) : list Z :=
  let N := ((L + HashLen - 1) / HashLen)%nat in
  firstn L (concat (map (HKDF_T prk info) (seq 1 N))).
End Hmac.

(** Instances for SHA-2. *)
Definition HMAC_SHA2 (V : variant) : list Z -> list Z -> list Z := HMAC (SHA V) (block_bytes V).
Definition HKDF_Extract_SHA2 (V : variant) := HKDF_Extract (SHA V) (block_bytes V).
Definition HKDF_Expand_SHA2 (V : variant) := HKDF_Expand (SHA V) (block_bytes V) (digest_bytes V).
