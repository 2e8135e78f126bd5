(** The accumulator as poly1305.rs keeps it: a representative of the RFC 8439 accumulator that is not always the smallest one.
    This is a description of the program, in integers, used to say exactly when its tags are wrong. *)
From Verif Require Import Base S_ChaCha.

(** Byte products that reach byte 17 or more of r * x, as a number in units of 2^136. *)
Definition lazy_wrap (r x : Z) : Z :=
  fold_right Z.add 0 (map (fun j => ((x / 256 ^ Z.of_nat j) mod 256) * (r / 256 ^ Z.of_nat (17 - j))) (seq 0 17)).
(** They count 320 instead of 2^136; then what is above bit 130 is folded once. *)
Definition lazy_reduce (y : Z) : Z := y mod 2 ^ 130 + 5 * (y / 2 ^ 130).
Definition lazy_step (r acc : Z) (blk : list Z) : Z :=
  let x := acc + le_decode (blk ++ [1]) in lazy_reduce (r * x - (2 ^ 136 - 320) * lazy_wrap r x).
Definition lazy_acc (r : Z) (msg : list Z) : Z := fold_left (lazy_step r) (chunks 16 msg) 0.

(** The tag of the program. *)
Definition program_tag (key nonce aad ciphertext : list Z) : list Z :=
  if lazy_acc (clamp (le_decode (firstn 16 (one_time_key key nonce)))) (mac_data aad ciphertext) <? P1305
  then rfc8439_tag key nonce aad ciphertext else faulty_tag key nonce aad ciphertext.
