(** Property theorems C13-C17: chacha20. *)
From Coq Require Import String.
From Verif Require Import Base Hex M_ChaCha20 M_Poly1305 S_ChaCha HistStream.
From Verif Require P_Stream.

Definition ex_key : list Z := h2b "000102030405060708090a0b0c0d0e0f101112131415161718191a1b1c1d1e1f".
Definition ex_nonce : list Z := h2b "000000000000004a00000000".
Example ex_key_ok : chacha_key ex_key /\ chacha_nonce ex_nonce.
Proof. repeat split; try apply BaseFacts.bytesb_spec; reflexivity. Qed.

(** ** C13: [n] calls of [next] on a fresh stream return the first [n] bytes of the keystream. *)
Theorem C13_keystream_is_rfc8439 : forall (key nonce : list Z) (b : build) (n : nat),
  chacha_key key -> chacha_nonce nonce -> Z.of_nat n <= 2 ^ 38 ->
  exists s0 s outs, stream_new key nonce = Ok s0 /\ run_ops b s0 (repeat OpNext n) = Ok (outs, s) /\
    concat (map out_bytes outs) = firstn n (chacha20_keystream key nonce 0 ((n + 63) / 64)).
Proof. intros key nonce b n [] []. now apply P_Stream.stream_take. Qed.
Print Assumptions C13_keystream_is_rfc8439.
(** RFC 8439, A.1 test vector 1. *)
Example C13_ex : firstn 8 (chacha20_keystream (repeat 0 32) (repeat 0 12) 0 1) = h2b "76b8e0ada0f13d90".
Proof. vm_compute. reflexivity. Qed.

(** ** C14 *)
Theorem C14_stream_histories : forall (key nonce : list Z) (b : build) (ops : list stream_op),
  chacha_key key -> chacha_nonce nonce -> Forall op_ok ops -> ops_size ops <= 2 ^ 38 ->
  exists s0 s, stream_new key nonce = Ok s0 /\
    run_ops b s0 ops = Ok (expect_ops (keystream_byte key nonce) 0 ops, s).
Proof. intros key nonce b ops [] []. now apply P_Stream.stream_history. Qed.
Print Assumptions C14_stream_histories.
Example C14_ex : let ops := [OpEncrypt (s2b "abc") [9; 9; 9]; OpNext; OpDecrypt [1; 2] [0; 0]] in
  Forall op_ok ops /\ ops_size ops = 6.
Proof.
  split; [|reflexivity]. repeat apply Forall_cons; cbn [op_ok]; auto;
  split; try apply BaseFacts.bytesb_spec; reflexivity.
Qed.
(** [keystream_byte] and [chacha20_keystream] describe the same keystream. *)
Theorem C14_keystream_byte_meaning : forall key nonce N n, (n < 64 * N)%nat ->
  keystream_byte key nonce (Z.of_nat n) = nth n (chacha20_keystream key nonce 0 N) 0.
Proof. intros. symmetry. now apply P_Stream.keystream_nth. Qed.
Print Assumptions C14_keystream_byte_meaning.

(** ** C15 *)
Theorem C15_stream_roundtrip : forall (key nonce : list Z) (b b' : build) (enc dec : list stream_op) outs s0 s,
  chacha_key key -> chacha_nonce nonce ->
  Forall op_ok enc -> Forall op_ok dec -> Forall (fun o => o <> OpNext) enc -> Forall (fun o => o <> OpNext) dec ->
  ops_size enc <= 2 ^ 38 ->
  stream_new key nonce = Ok s0 -> run_ops b s0 enc = Ok (outs, s) ->
  (* the other side splits the ciphertext in another way *)
  concat (map op_input dec) = concat (map out_bytes outs) ->
  exists outs' s', run_ops b' s0 dec = Ok (outs', s') /\
    concat (map out_bytes outs') = concat (map op_input enc).
Proof. intros key nonce b b' enc dec outs s0 s [] []. now apply P_Stream.stream_roundtrip. Qed.
Print Assumptions C15_stream_roundtrip.
(** The new output buffer does not depend on the old one, and unequal lengths panic in every state. *)
Theorem C15_buffers : forall b s input output,
  (length input <> length output -> stream_encrypt b s input output = Panic /\ stream_decrypt b s input output = Panic)
  /\ forall output', length output' = length output ->
     stream_encrypt b s input output' = stream_encrypt b s input output /\
     stream_decrypt b s input output' = stream_decrypt b s input output.
Proof.
  intros b s input output. split.
  - intros H. unfold stream_encrypt, stream_decrypt.
    destruct (P_Stream.encrypt_panics b s input output) as [-> |]; [auto|contradiction].
  - intros output' H. split; now apply P_Stream.buffers_irrelevant.
Qed.
Print Assumptions C15_buffers.
Example C15_ex : exists s0 s s' c d,
  stream_new ex_key ex_nonce = Ok s0 /\
  run_ops Checked s0 [OpEncrypt (s2b "hel") [1; 1; 1]; OpEncrypt (s2b "lo") [5; 6]] = Ok ([OutBuf c; OutBuf d], s) /\
  run_ops Unchecked s0 [OpDecrypt (c ++ d) [0; 0; 0; 0; 0]] = Ok ([OutBuf (s2b "hello")], s').
Proof.
  do 5 eexists. split; [vm_compute; reflexivity|]. split; [vm_compute; reflexivity|]. vm_compute; reflexivity.
Qed.

(** ** C16: past 2^38 bytes *)
Theorem C16_stream_past_end : forall (key nonce : list Z) (ops : list stream_op),
  chacha_key key -> chacha_nonce nonce -> Forall op_ok ops ->
  exists s0, stream_new key nonce = Ok s0 /\
  (2 ^ 38 < ops_size ops -> run_ops Checked s0 ops = Panic) /\
  (exists s, run_ops Unchecked s0 ops =
     Ok (expect_ops (fun n => keystream_byte key nonce (n mod 2 ^ 38)) 0 ops, s)).
Proof. intros key nonce ops [] []. now apply P_Stream.stream_past_end. Qed.
Print Assumptions C16_stream_past_end.
(** Histories this long exist. *)
Example C16_ex : exists ops, Forall op_ok ops /\ 2 ^ 38 < ops_size ops.
Proof.
  assert (H : forall n, Forall op_ok (repeat OpNext n) /\ ops_size (repeat OpNext n) = Z.of_nat n).
  { intros n. split.
    - apply Forall_forall. intros o Ho. apply repeat_spec in Ho. subst. exact I.
    - induction n as [|n IH]; [reflexivity|]. cbn [repeat ops_size op_size]. rewrite IH. lia. }
  exists (repeat OpNext (Z.to_nat (2 ^ 38 + 1))). destruct (H (Z.to_nat (2 ^ 38 + 1))) as [H1 H2].
  split; [exact H1|]. rewrite H2, Z2Nat.id; lia.
Qed.

(** ** C17 *)
Theorem C17_constructor_panics : forall key nonce : list Z,
  (stream_new key nonce = Panic <-> length key <> 32%nat \/ length nonce <> 12%nat) /\
  (ccp_new key = Panic <-> length key <> 32%nat).
Proof. intros key nonce. split; [apply P_Stream.stream_new_panics|apply P_Stream.ccp_new_panics]. Qed.
Print Assumptions C17_constructor_panics.
Example C17_ex : stream_new (repeat 0 32) (repeat 0 8) = Panic /\ ccp_new (repeat 0 31) = Panic /\
  ccp_new (repeat 0 32) = Ok (repeat 0 32).
Proof. repeat split. Qed.
