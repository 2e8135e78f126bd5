(** Model of src/gcm.rs.  The chunk loop is shared with src/poly1305.rs
    ([ctr_loop] in M_Poly1305). *)
From Verif Require Import Base M_Util M_Poly1305 M_Aes M_Ghash.

(** gcm.rs:127-132 [check_bounds].  [1 << 36] and [1 << 61] are [usize]. *)
Definition check_bounds (message ciphertext nonce data : list Z) : res unit :=
  let! _ := assertb (12 =? length nonce)%nat in
  let! _ := assertb (length message =? length ciphertext)%nat in
  let! _ := assertb (len message + 32 <? 2 ^ 36) in
  assertb (len data <? 2 ^ 61).

(** gcm.rs:121-125 [counter]; [copy_from_slice] panics unless the nonce has 12
    bytes. *)
Definition counter (nonce : list Z) : res (list Z) :=
  let! _ := assertb (length nonce =? 12)%nat in
  write_slice (repeat 0 16) 0 nonce.

Section Gcm.
Variable E : BlockCipher.

(** gcm.rs:101-104 [Processor::block]; the last four bytes of [counter] are
    overwritten on every use, so returning the updated counter is not needed. *)
Definition gcm_block (k : bc_state E) (counter : list Z) (i : Z) : list Z :=
  bc_permute E k (firstn 12 counter ++ be_encode 4 i).

(** gcm.rs:88-99 [process]. *)
Definition gcm_process (b : build) (k : bc_state E) (counter input output : list Z) : res (list Z) :=
  let! outs := ctr_loop b (gcm_block k counter) 2 (chunks 16 input) (chunks 16 output) in
  Ok (concat outs).

(** gcm.rs:106-118 [tag], [ghash]. *)
Definition gcm_tag (b : build) (k : bc_state E) (ciphertext data counter : list Z) : res (list Z) :=
  let tag := gcm_block k counter 1 in
  let key := bc_permute E k (repeat 0 16) in
  let! hash := ghash b key data ciphertext in
  Ok (xorl tag hash).

(** gcm.rs:34-36, 82-86 [new]. *)
Definition gcm_new (key : list Z) : res (bc_state E) := bc_new E key.

(** gcm.rs:44-49 [encrypt]. *)
Definition gcm_encrypt (b : build) (k : bc_state E) (input nonce data output : list Z)
  : res (list Z * list Z) :=
  let! _ := check_bounds input output nonce data in
  let! ctr := counter nonce in
  let! output := gcm_process b k ctr input output in
  let! tag := gcm_tag b k output data ctr in
  Ok (output, tag).

(** gcm.rs:57-74 [decrypt]. *)
Definition gcm_decrypt (b : build) (k : bc_state E) (input nonce data tag output : list Z)
  : res (list Z * bool) :=
  let! _ := check_bounds output input nonce data in
  let! ctr := counter nonce in
  let! expected_tag := gcm_tag b k input data ctr in
  let! ok := verify_16 expected_tag tag in
  if ok : bool
  then let! output := gcm_process b k ctr input output in Ok (output, true)
  else Ok (output, false).

End Gcm.
