(** C84: AES-GCM does not commit to the key. *)
From Verif Require Import Base M_Aes M_Ghash M_Gcm S_Gf2 S_Gcm S_Aes T_Gcm.
From Verif Require P_Gcm P_Commit BaseFacts.

(** For any two keys (even of different block ciphers) that encrypt the zero block differently, any two nonces, any two pieces of
    associated data and any whole number of leading ciphertext blocks, there are one more ciphertext block and one tag that [decrypt]
    accepts under both keys. *)
Theorem C84_gcm_not_key_committing : forall E k E' k', block_cipher E k -> block_cipher E' k' ->
  forall nonce nonce' data data' pre,
  gcm_nonce nonce -> gcm_nonce nonce' -> gcm_data data -> gcm_data data' -> bytes pre -> len pre mod 16 = 0 -> len pre + 16 <= checked_limit ->
  bc_permute E k (repeat 0 16) <> bc_permute E' k' (repeat 0 16) ->
  exists c tag, length c = 16%nat /\ bytes c /\ is_block tag /\
    forall b out, length out = length (pre ++ c) ->
      gcm_decrypt E b k (pre ++ c) nonce data tag out = Ok (gcm_ciphertext (bc_permute E k) nonce (pre ++ c), true) /\
      gcm_decrypt E' b k' (pre ++ c) nonce' data' tag out = Ok (gcm_ciphertext (bc_permute E' k') nonce' (pre ++ c), true).
Proof.
  intros E k E' k' HE HE' nonce nonce' data data' pre Hn Hn' Hd Hd' Bp Mp Lp Ne.
  assert (Z16 : is_block (repeat 0 16)).
  { split; [reflexivity|]. apply BaseFacts.bytes_repeat. unfold byte_ok; lia. }
  assert (BJ : forall n, gcm_nonce n -> is_block (J0 n)).
  { intros n [Ln Bn]. split; [unfold J0; rewrite app_length, Ln; reflexivity|].
    apply BaseFacts.bytes_app. split; [exact Bn|]. apply BaseFacts.bytesb_spec. reflexivity. }
  assert (T : forall E k n A c, block_cipher E k -> gcm_nonce n -> bytes (gcm_auth_tag (bc_permute E k) n A c) /\ length (gcm_auth_tag (bc_permute E k) n A c) = 16%nat).
  { intros E0 k0 n A c H0 H1. exact (P_Commit.tag_block (bc_permute E0 k0) n A c (proj2 (H0 _ (BJ n H1))) (proj1 (H0 _ (BJ n H1)))). }
  destruct (P_Commit.two_keys (bc_permute E k) (bc_permute E' k') nonce nonce' data data' pre (length pre / 16)) as (c & Lc & Bc & Et); try exact Ne.
  - unfold len in Mp. pose proof (Nat.div_mod (length pre) 16 ltac:(discriminate)) as D.
    assert (M : (length pre mod 16 = 0)%nat) by (apply Nat2Z.inj; rewrite Nat2Z.inj_mod; exact Mp). lia.
  - split; apply (HE _ Z16).
  - split; apply (HE' _ Z16).
  - split; apply (HE _ (BJ _ Hn)).
  - split; apply (HE' _ (BJ _ Hn')).
  - intros c. exact (T E k nonce data c HE Hn).
  - intros c. exact (T E' k' nonce' data' c HE' Hn').
  - exists c, (gcm_auth_tag (bc_permute E k) nonce data (pre ++ c)). split; [exact Lc|]. split; [exact Bc|].
    assert (Lm : len (pre ++ c) <= checked_limit) by (unfold len in *; rewrite app_length, Lc; lia).
    assert (Hm : gcm_message (pre ++ c)).
    { split; [apply BaseFacts.bytes_app; split; assumption|]. unfold checked_limit in Lm. lia. }
    destruct (C32_decrypt_accepts_exactly E k HE nonce data (pre ++ c) Hn Hd Hm) as (B & A1 & _).
    destruct (C32_decrypt_accepts_exactly E' k' HE' nonce' data' (pre ++ c) Hn' Hd' Hm) as (_ & A2 & _).
    split; [exact B|]. intros b out Lo. split; [exact (A1 b out Lo (or_intror Lm))|]. rewrite Et. exact (A2 b out Lo (or_intror Lm)).
Qed.
Print Assumptions C84_gcm_not_key_committing.
(** The keys 0^128 and 1 || 0^120 of AES-128 are such a pair. *)
Lemma ex_bit : (let! k := gcm_new Aes128 (repeat 0 16) in let! k' := gcm_new Aes128 (1 :: repeat 0 15) in
  Ok (Z.eqb (nth 0 (bc_permute Aes128 k (repeat 0 16)) 0) (nth 0 (bc_permute Aes128 k' (repeat 0 16)) 0))) = Ok false.
Proof. vm_compute. reflexivity. Qed.
Lemma bind_inv {A B} (x : res A) (f : A -> res B) v : (let! a := x in f a) = Ok v -> exists a, x = Ok a /\ f a = Ok v.
Proof. destruct x as [a|]; [|discriminate]. intros H. exists a. split; [reflexivity|exact H]. Qed.
Lemma nth_neq (l m : list Z) : Ok (Z.eqb (nth 0 l 0) (nth 0 m 0)) = Ok false -> l <> m.
Proof. intros H E. rewrite E, Z.eqb_refl in H. discriminate H. Qed.
Example C84_ex : exists k k', gcm_new Aes128 (repeat 0 16) = Ok k /\ gcm_new Aes128 (1 :: repeat 0 15) = Ok k' /\
  exists c tag, length c = 16%nat /\ forall b out, length out = 16%nat ->
    gcm_decrypt Aes128 b k c (repeat 0 12) [] tag out = Ok (gcm_ciphertext (bc_permute Aes128 k) (repeat 0 12) c, true) /\
    gcm_decrypt Aes128 b k' c (repeat 9 12) [7] tag out = Ok (gcm_ciphertext (bc_permute Aes128 k') (repeat 9 12) c, true).
Proof.
  destruct (bind_inv _ _ _ ex_bit) as (k & Ek & X). destruct (bind_inv _ _ _ X) as (k' & Ek' & Ne). exists k, k'.
  split; [exact Ek|]. split; [exact Ek'|].
  assert (HE : block_cipher Aes128 k) by exact (aes128_cipher k Ek).
  assert (HE' : block_cipher Aes128 k').
  { refine (proj1 (T_Aes.C27_permutation Aes128 (or_introl eq_refl) (1 :: repeat 0 15) k' _ Ek')). apply BaseFacts.bytesb_spec; reflexivity. }
  destruct (C84_gcm_not_key_committing Aes128 k Aes128 k' HE HE' (repeat 0 12) (repeat 9 12) [] [7] []) as (c & tag & Lc & _ & _ & H);
    try (split; [reflexivity|apply BaseFacts.bytesb_spec; reflexivity]); try (split; [apply BaseFacts.bytesb_spec; reflexivity|reflexivity]).
  - apply BaseFacts.bytesb_spec; reflexivity.
  - reflexivity.
  - discriminate.
  - exact (nth_neq _ _ Ne).
  - exists c, tag. split; [exact Lc|]. intros b out Lo. apply (H b out). cbn [app]. rewrite Lo. exact (eq_sym Lc).
Qed.
