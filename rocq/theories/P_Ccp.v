(** ChaCha20-Poly1305: encrypt and decrypt. *)
From Verif Require Import BaseFacts Mono M_Util M_ChaCha20 M_Poly1305 S_ChaCha P_Util P_ChaCha P_Ctr P_Poly1305.
From Coq Require Import ZifyBool ZifyNat.
Local Opaque chacha20_block chacha_block.

Definition LIM : Z := 2 ^ 38 - 192.

Section S.
Variables key nonce : list Z.
Hypothesis Hk : length key = 32%nat.
Hypothesis Hn : length nonce = 12%nat.
Hypothesis Bk : bytes key.
Hypothesis Bn : bytes nonce.

Definition blkf (c : Z) : list Z := chacha20_block key c nonce.
Definition kstream (N : nat) : list Z := ctr_stream blkf 1 N.
Definition nblk (m : list Z) : nat := length (chunks 64 m).
Definition crypt (m : list Z) : list Z := xorl m (kstream (nblk m)).

Lemma cipher_ok : chacha_new key nonce = Ok (chacha_words key nonce).
Proof. rewrite chacha_new_eq, Hk, Hn. reflexivity. Qed.

Lemma ctr_loop_ext b f g : (forall c, w32 c -> f c = g c) -> forall ins outs i, w32 i ->
  ctr_loop b f i ins outs = ctr_loop b g i ins outs.
Proof.
  intros H. induction ins as [|c ins IH]; intros [|o outs] i Hi; cbn [ctr_loop]; try reflexivity.
  destruct (uchk b 32 (i + 1)) as [i'|] eqn:E; cbn [bind]; [|reflexivity].
  assert (W : w32 i').
  { unfold uchk in E. destruct ((0 <=? i + 1) && (i + 1 <? 2 ^ 32)) eqn:C.
    - injection E as <-. unfold w32. lia.
    - destruct b; [discriminate|]. injection E as <-. unfold w32. apply Z.mod_pos_bound. lia. }
  rewrite IH by assumption. rewrite H by assumption. reflexivity.
Qed.

Lemma nblk_len m : Z.of_nat (nblk m) = (len m + 63) / 64.
Proof. clear Hk Hn Bk Bn.
  change (Z.of_nat (nblk m)) with (len (chunks 64 m)). rewrite (chunks_len 64 ltac:(lia)). change (Z.of_nat 64) with 64.
  replace (len m + 64 - 1) with (len m + 63) by lia. reflexivity.
Qed.
Lemma nblk_64 m : (length m <= 64 * nblk m)%nat.
Proof. clear Hk Hn Bk Bn.
  pose proof (nblk_len m) as H. pose proof (Z.mul_succ_div_gt (len m + 63) 64 ltac:(lia)). unfold len in *. lia.
Qed.
Lemma nblk_same m m' : length m = length m' -> nblk m = nblk m'.
Proof. clear Hk Hn Bk Bn. intros H. pose proof (nblk_len m). pose proof (nblk_len m'). unfold len in *. rewrite H in *. lia. Qed.
Lemma kstream_length N : length (kstream N) = (64 * N)%nat.
Proof. clear Hk Hn Bk Bn. unfold kstream. rewrite (ctr_stream_length _ 64); [lia|]. intros; apply block_length. Qed.
Lemma crypt_length m : length (crypt m) = length m.
Proof. clear Hk Hn Bk Bn. unfold crypt. rewrite xorl_length, kstream_length. pose proof (nblk_64 m). lia. Qed.
Lemma crypt_crypt m : crypt (crypt m) = m.
Proof. clear Hk Hn Bk Bn.
  unfold crypt at 1. rewrite (nblk_same (crypt m) m) by apply crypt_length. unfold crypt.
  apply xorl_cancel. rewrite kstream_length. apply nblk_64.
Qed.
Lemma crypt_bytes m : bytes m -> bytes (crypt m).
Proof. clear Hk Hn Bk Bn.
  intros H. apply xorl_bytes; [assumption|]. apply bytes_concat, Forall_map, Forall_forall. intros j _. apply block_bytes.
Qed.

Lemma process_ok b m out : length m = length out -> b = Unchecked \/ len m <= LIM ->
  aead_process b (chacha_words key nonce) m out = Ok (crypt m).
Proof.
  intros Hl Hb. unfold aead_process.
  rewrite (ctr_loop_ext b _ blkf) by (try (unfold w32; lia); intros; apply block_eq; assumption).
  destruct (ctr_loop_ok 64 blkf ltac:(lia) ltac:(intros; apply block_length) b m out 1 Hl ltac:(lia)) as (outs & E & C).
  { destruct Hb as [|Hb]; [auto|right]. change (len (chunks 64 m)) with (Z.of_nat (nblk m)). rewrite nblk_len.
    pose proof (Z.mul_div_le (len m + 63) 64 ltac:(lia)). unfold LIM in Hb. lia. }
  rewrite E. cbn [bind]. rewrite C. reflexivity.
Qed.

Lemma process_panic m out : length m = length out -> LIM < len m ->
  aead_process Checked (chacha_words key nonce) m out = Panic.
Proof.
  intros Hl Hb. unfold aead_process.
  rewrite (ctr_loop_ext Checked _ blkf) by (try (unfold w32; lia); intros; apply block_eq; assumption).
  rewrite (ctr_loop_panic 64 blkf ltac:(lia) ltac:(intros; apply block_length)); [reflexivity|assumption|lia|].
  change (len (chunks 64 m)) with (Z.of_nat (nblk m)). rewrite nblk_len.
  pose proof (Z.mul_succ_div_gt (len m + 63) 64 ltac:(lia)). unfold LIM in Hb. lia.
Qed.

Lemma otk_eq : firstn 32 (chacha_block (chacha_words key nonce) 0) = one_time_key key nonce.
Proof. rewrite block_eq by (try assumption; unfold w32; lia). reflexivity. Qed.
Lemma otk_ok : bytes (one_time_key key nonce) /\ length (one_time_key key nonce) = 32%nat.
Proof.
  unfold one_time_key. split; [apply bytes_firstn, block_bytes|]. rewrite firstn_length, block_length. lia.
Qed.

Lemma tag_ok data ct : bytes data -> bytes ct -> len data < 2 ^ 64 -> len ct < 2 ^ 64 ->
  exists t, (forall b, aead_tag b (chacha_words key nonce) ct data = Ok t) /\ bytes t /\ length t = 16%nat /\
    ((2 ^ 22 + 5 <= rfc8439_acc key nonce data ct -> t = rfc8439_tag key nonce data ct) /\
     (t = rfc8439_tag key nonce data ct \/ t = faulty_tag key nonce data ct)).
Proof.
  intros Bd Bc Ld Lc. unfold aead_tag. rewrite otk_eq. destruct otk_ok as [B L].
  destruct (poly1305_ok Checked (one_time_key key nonce) data ct B L Bd Bc Ld Lc) as (t & E & Bt & Lt & V).
  exists t. split; [|auto].
  intros b. apply (rle_any (fun b => poly1305 b (one_time_key key nonce) data ct)); [apply poly1305_mono|exact E].
Qed.

Lemma encrypt_ok msg data : bytes msg -> bytes data -> len data < 2 ^ 64 -> len msg < 2 ^ 64 ->
  exists t, bytes t /\ length t = 16%nat /\
    ((2 ^ 22 + 5 <= rfc8439_acc key nonce data (crypt msg) -> t = rfc8439_tag key nonce data (crypt msg)) /\
     (t = rfc8439_tag key nonce data (crypt msg) \/ t = faulty_tag key nonce data (crypt msg))) /\
    (forall b, aead_tag b (chacha_words key nonce) (crypt msg) data = Ok t) /\
    forall b out, length out = length msg -> b = Unchecked \/ len msg <= LIM ->
      ccp_encrypt b key msg nonce data out = Ok (crypt msg, t).
Proof.
  intros Bm Bd Ld Lm. destruct (tag_ok data (crypt msg)) as (t & E & Bt & Lt & V); auto.
  { apply crypt_bytes, Bm. } { unfold len in *. now rewrite crypt_length. }
  exists t. repeat (split; [assumption|]). intros b out Ho Hb. unfold ccp_encrypt.
  rewrite (proj2 (Nat.eqb_eq _ _)) by lia. cbn [assertb bind]. rewrite cipher_ok. cbn [bind].
  rewrite process_ok by (try assumption; lia). cbn [bind]. rewrite E. reflexivity.
Qed.

Lemma encrypt_panic msg data out : length out = length msg -> LIM < len msg ->
  ccp_encrypt Checked key msg nonce data out = Panic.
Proof.
  intros Ho Hb. unfold ccp_encrypt.
  rewrite (proj2 (Nat.eqb_eq _ _)) by lia. cbn [assertb bind]. rewrite cipher_ok. cbn [bind].
  rewrite process_panic by (try assumption; lia). reflexivity.
Qed.

Lemma decrypt_ok ct data : bytes ct -> bytes data -> len data < 2 ^ 64 -> len ct < 2 ^ 64 ->
  exists t, length t = 16%nat /\ bytes t /\
    (forall b out, length out = length ct -> b = Unchecked \/ len ct <= LIM ->
       ccp_encrypt b key (crypt ct) nonce data out = Ok (ct, t)) /\
    (forall b out, length out = length ct -> b = Unchecked \/ len ct <= LIM ->
       ccp_decrypt b key ct nonce data t out = Ok (crypt ct, true)) /\
    forall b out tag, length out = length ct -> tag <> t -> ccp_decrypt b key ct nonce data tag out = Ok (out, false).
Proof.
  intros Bc Bd Ld Lc.
  destruct (encrypt_ok (crypt ct) data) as (t & Bt & Lt & V & Et & E); auto.
  { now apply crypt_bytes. } { unfold len in *. now rewrite crypt_length. }
  rewrite crypt_crypt in *.
  exists t. split; [assumption|]. split; [assumption|]. split.
  { intros b out Ho Hb. apply E; [now rewrite crypt_length|]. unfold len in *. now rewrite crypt_length. }
  split.
  - intros b out Ho Hb. unfold ccp_decrypt.
    rewrite (proj2 (Nat.eqb_eq _ _)) by lia. cbn [assertb bind]. rewrite cipher_ok. cbn [bind]. rewrite Et. cbn [bind].
    destruct (verify_16_spec t t) as (v & -> & Hv). destruct v; [|exfalso; specialize (proj2 Hv eq_refl); discriminate].
    cbn [bind]. rewrite process_ok by (try assumption; lia). reflexivity.
  - intros b out tag Ho Ht. unfold ccp_decrypt.
    rewrite (proj2 (Nat.eqb_eq _ _)) by lia. cbn [assertb bind]. rewrite cipher_ok. cbn [bind]. rewrite Et. cbn [bind].
    destruct (verify_16_spec t tag) as (v & -> & Hv). destruct v; [|reflexivity].
    exfalso. apply Ht. symmetry. now apply Hv.
Qed.

(** The keystream is the RFC's as long as the counter does not wrap. *)
Lemma crypt_rfc m : len m <= 2 ^ 38 - 64 -> crypt m = aead_ciphertext key nonce m.
Proof. clear Hk Hn Bk Bn.
  intros Hm. unfold crypt, aead_ciphertext, chacha20_encrypt, kstream, ctr_stream, chacha20_keystream.
  pose proof (nblk_len m) as HN. pose proof (Z.mul_div_le (len m + 63) 64 ltac:(lia)).
  assert (E : nblk m = ((length m + 63) / 64)%nat).
  { apply Nat2Z.inj. rewrite HN, Nat2Z.inj_div. unfold len. f_equal. lia. }
  rewrite <- E. apply (f_equal (fun s => xorl m (concat s))). apply map_ext_in. intros j Hj. apply in_seq in Hj. unfold blkf.
  rewrite Z.mod_small by lia. reflexivity.
Qed.

(** Byte number [n] of the keystream actually used. *)
Lemma kstream_nth N n : (n < 64 * N)%nat ->
  nth n (kstream N) 0 = keystream_byte key nonce ((Z.of_nat n + 64) mod 2 ^ 38).
Proof. clear Hk Hn Bk Bn.
  unfold kstream. 
  assert (G : forall N i n, (n < 64 * N)%nat -> 0 <= i ->
    nth n (ctr_stream blkf i N) 0 = keystream_byte key nonce ((Z.of_nat n + 64 * i) mod 2 ^ 38)).
  { clear. induction N as [|N IH]; intros i n Hn Hi; [lia|]. rewrite ctr_stream_S.
    destruct (Nat.lt_ge_cases n 64) as [Hlt|Hge].
    - rewrite app_nth1 by (unfold blkf; rewrite block_length; lia). unfold keystream_byte.
      assert (Eq : (Z.of_nat n + 64 * i) mod 2 ^ 38 = Z.of_nat n + 64 * (i mod 2 ^ 32)).
      { symmetry. pose proof (Z.div_mod i (2 ^ 32) ltac:(lia)). pose proof (Z.mod_pos_bound i (2 ^ 32) ltac:(lia)).
        apply (Z.mod_unique _ _ (i / 2 ^ 32)); lia. }
      rewrite Eq. replace ((Z.of_nat n + 64 * (i mod 2 ^ 32)) mod 64) with (Z.of_nat n).
      2:{ rewrite Z.mul_comm, Z.mod_add by lia. rewrite Z.mod_small; lia. }
      replace ((Z.of_nat n + 64 * (i mod 2 ^ 32)) / 64) with (i mod 2 ^ 32).
      2:{ rewrite (Z.mul_comm 64), Z.div_add by lia. rewrite Z.div_small; lia. }
      rewrite Nat2Z.id. reflexivity.
    - rewrite app_nth2 by (unfold blkf; rewrite block_length; lia). unfold blkf at 1. rewrite block_length.
      rewrite IH by lia. replace (Z.of_nat (n - 64) + 64 * (i + 1)) with (Z.of_nat n + 64 * i) by lia. reflexivity. }
  intros H. rewrite G by lia. rewrite Z.mul_1_r. reflexivity.
Qed.

Lemma crypt_nth m n : (n < length m)%nat ->
  nth n (crypt m) 0 = Z.lxor (nth n m 0) (keystream_byte key nonce ((Z.of_nat n + 64) mod 2 ^ 38)).
Proof. clear Hk Hn Bk Bn.
  intros H. pose proof (nblk_64 m). rewrite <- (kstream_nth (nblk m)) by lia. unfold crypt.
  assert (G : forall l k n, (n < length l)%nat -> (n < length k)%nat -> nth n (xorl l k) 0 = Z.lxor (nth n l 0) (nth n k 0)).
  { clear. unfold xorl. induction l as [|x l IH]; intros [|y k] [|n] H1 H2; cbn [length] in *; try lia; cbn [zipwith nth]; [reflexivity|].
    apply IH; lia. }
  apply G; [assumption|]. rewrite kstream_length. lia.
Qed.

Lemma keystream_otk j : (j < 32)%nat -> keystream_byte key nonce (Z.of_nat j) = nth j (one_time_key key nonce) 0.
Proof. clear Hk Hn Bk Bn.
  intros H. unfold keystream_byte, one_time_key. rewrite Z.div_small, Z.mod_small, Nat2Z.id by lia.
  rewrite <- (firstn_skipn 32 (chacha20_block key 0 nonce)) at 1. rewrite app_nth1; [reflexivity|].
  rewrite firstn_length, block_length. lia.
Qed.
End S.

Lemma encrypt_bad_args b key msg nonce data out : length key = 32%nat ->
  length msg <> length out \/ length nonce <> 12%nat -> ccp_encrypt b key msg nonce data out = Panic.
Proof.
  intros Hk H. unfold ccp_encrypt. destruct (Nat.eqb_spec (length msg) (length out)); cbn [assertb bind]; [|reflexivity].
  rewrite chacha_new_eq, Hk. destruct (Nat.eqb_spec (length nonce) 12); cbn [Nat.eqb andb bind]; [|reflexivity].
  destruct H; contradiction.
Qed.
Lemma decrypt_bad_args b key ct nonce data tag out : length key = 32%nat ->
  length ct <> length out \/ length nonce <> 12%nat -> ccp_decrypt b key ct nonce data tag out = Panic.
Proof.
  intros Hk H. unfold ccp_decrypt. destruct (Nat.eqb_spec (length out) (length ct)); cbn [assertb bind]; [|reflexivity].
  rewrite chacha_new_eq, Hk. destruct (Nat.eqb_spec (length nonce) 12); cbn [Nat.eqb andb bind]; [|reflexivity].
  destruct H; congruence.
Qed.
