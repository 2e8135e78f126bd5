(** AES-GCM: no keystream block is used twice under one key. *)
From Verif Require Import Base M_Aes M_Gcm S_Gcm T_Gcm.
From Verif Require BaseFacts T_Aes.

(** Block number [i] of a byte string. *)
Definition block_of (i : nat) (l : list Z) : list Z := firstn 16 (skipn (16 * i) l).

Lemma xorl_nth : forall x y n, (n < length x)%nat -> length x = length y -> nth n (xorl x y) 0 = Z.lxor (nth n x 0) (nth n y 0).
Proof.
  induction x as [|a x IH]; intros [|c y] n Hn Hl; cbn [length] in *; try lia. destruct n as [|n]; [reflexivity|].
  apply (IH y n); lia.
Qed.
Lemma nth_block i l n : (n < 16)%nat -> nth n (block_of i l) 0 = nth (16 * i + n) l 0.
Proof.
  intros Hn. unfold block_of. 
  assert (F : forall (x : list Z) k n, (n < k)%nat -> nth n (firstn k x) 0 = nth n x 0).
  { induction x as [|a x IH]; intros [|k] [|m] H; cbn [firstn nth]; try lia; try reflexivity. apply IH; lia. }
  rewrite F by exact Hn. generalize (16 * i)%nat. clear. intros k. revert l. induction k as [|k IH]; intros [|a l]; cbn [skipn Nat.add nth]; try reflexivity.
  - now destruct n.
  - apply IH.
Qed.
Lemma block_of_length i l : (16 * i + 16 <= length l)%nat -> length (block_of i l) = 16%nat.
Proof. intros H. unfold block_of. rewrite firstn_length, skipn_length. lia. Qed.
Lemma block_of_bytes i l : bytes l -> bytes (block_of i l).
Proof. intros H. apply BaseFacts.bytes_firstn, BaseFacts.bytes_skipn, H. Qed.

Lemma block_eq E k : block_cipher E k -> forall b nonce data msg out c t i,
  bytes nonce -> bytes data -> bytes msg -> gcm_encrypt E b k msg nonce data out = Ok (c, t) -> (16 * i + 16 <= length msg)%nat ->
  is_block (counter_block nonce i) /\ 0 <= 2 + Z.of_nat i < 2 ^ 32 /\ length nonce = 12%nat /\ length c = length msg /\
  block_of i c = xorl (block_of i msg) (bc_permute E k (counter_block nonce i)).
Proof.
  intros HE b nonce data msg out c t i Bn Bd Bm Ee Hi.
  assert (Hargs : ~ (length msg <> length out \/ length nonce <> 12%nat \/ 2 ^ 36 - 32 <= len msg \/ 2 ^ 61 <= len data)).
  { intros H. rewrite (proj1 (P_Gcm.gcm_bad_args E b k msg nonce data [] out H)) in Ee. discriminate. }
  destruct (C35_counter_blocks_distinct E k HE b nonce data msg out c t Bn Bd Bm Ee) as (Lc & Hc & _).
  assert (Hn : length nonce = 12%nat) by lia.
  assert (IB : is_block (counter_block nonce i)).
  { unfold counter_block. split; [rewrite app_length, BaseFacts.be_encode_length; lia|].
    apply BaseFacts.bytes_app. split; [exact Bn|]. apply BaseFacts.be_encode_bytes. }
  split; [exact IB|]. split; [unfold len in Hargs; lia|]. split; [exact Hn|]. split; [exact Lc|].
  destruct (HE _ IB) as [Lp _].
  apply (nth_ext _ _ 0 0).
  - rewrite BaseFacts.xorl_length, !block_of_length by lia. lia.
  - intros n Hlt. rewrite block_of_length in Hlt by lia.
    rewrite xorl_nth; [|rewrite block_of_length; lia|rewrite block_of_length, Lp; lia]. rewrite !nth_block by exact Hlt. rewrite Hc by lia.
    replace ((16 * i + n) / 16)%nat with i by (apply (Nat.div_unique _ _ _ n); lia).
    now replace ((16 * i + n) mod 16)%nat with n by (apply (Nat.mod_unique _ _ i); lia).
Qed.

(** ** C88.  Two full blocks of two messages (or of one) encrypted under one AES key use the same keystream block exactly when both
    the nonces and the positions agree. *)
Theorem C88_keystream_blocks_distinct : forall E, E = Aes128 \/ E = Aes192 \/ E = Aes256 ->
  forall key st, bytes key -> bc_new E key = Ok st ->
  forall b nonce data msg out c t, bytes nonce -> bytes data -> bytes msg ->
  gcm_encrypt E b st msg nonce data out = Ok (c, t) ->
  forall b' nonce' data' msg' out' c' t', bytes nonce' -> bytes data' -> bytes msg' ->
  gcm_encrypt E b' st msg' nonce' data' out' = Ok (c', t') ->
  forall i j, (16 * i + 16 <= length msg)%nat -> (16 * j + 16 <= length msg')%nat ->
  (xorl (block_of i msg) (block_of i c) = xorl (block_of j msg') (block_of j c') <-> nonce = nonce' /\ i = j).
Proof.
  intros E HE key st Bk Est b nonce data msg out c t Bn Bd Bm Ee b' nonce' data' msg' out' c' t' Bn' Bd' Bm' Ee' i j Hi Hj.
  destruct (T_Aes.C27_permutation E HE key st Bk Est) as (P1 & P2 & _).
  assert (HB : block_cipher E st) by exact P1.
  destruct (block_eq E st HB b nonce data msg out c t i Bn Bd Bm Ee Hi) as (I1 & R1 & N1 & L1 & X1).
  destruct (block_eq E st HB b' nonce' data' msg' out' c' t' j Bn' Bd' Bm' Ee' Hj) as (I2 & R2 & N2 & L2 & X2).
  assert (K : forall l m, length l = 16%nat -> length m = 16%nat -> xorl l (xorl l m) = m).
  { clear. intros l m H1 H2. apply (nth_ext _ _ 0 0); rewrite !BaseFacts.xorl_length; [lia|].
    intros n Hn. rewrite !xorl_nth by (rewrite ?BaseFacts.xorl_length; lia). now rewrite <- Z.lxor_assoc, Z.lxor_nilpotent, Z.lxor_0_l. }
  rewrite X1, X2. rewrite !K by (try (apply block_of_length; lia); apply HB; assumption).
  split; [|now intros [-> ->] ].
  intros Eq. apply P2 in Eq; [|exact I1|exact I2]. unfold counter_block in Eq.
  assert (EN : nonce = nonce').
  { apply (f_equal (firstn 12)) in Eq. rewrite !firstn_app, N1, N2, Nat.sub_diag, !firstn_O, !app_nil_r in Eq.
    rewrite !firstn_all2 in Eq by lia. exact Eq. }
  split; [exact EN|]. rewrite EN in Eq. apply app_inv_head in Eq. apply (f_equal be_decode) in Eq. rewrite !BaseFacts.be_decode_encode in Eq.
  change (256 ^ Z.of_nat 4) with (2 ^ 32) in Eq. rewrite !Z.mod_small in Eq by assumption. clear -Eq. lia.
Qed.
Print Assumptions C88_keystream_blocks_distinct.
(** In particular equal blocks of plaintext never show as equal blocks of ciphertext. *)
Theorem C88_equal_blocks_encrypt_differently : forall E, E = Aes128 \/ E = Aes192 \/ E = Aes256 ->
  forall key st, bytes key -> bc_new E key = Ok st ->
  forall b nonce data msg out c t, bytes nonce -> bytes data -> bytes msg ->
  gcm_encrypt E b st msg nonce data out = Ok (c, t) ->
  forall b' nonce' data' msg' out' c' t', bytes nonce' -> bytes data' -> bytes msg' ->
  gcm_encrypt E b' st msg' nonce' data' out' = Ok (c', t') ->
  forall i j, (16 * i + 16 <= length msg)%nat -> (16 * j + 16 <= length msg')%nat ->
  nonce <> nonce' \/ i <> j -> block_of i msg = block_of j msg' -> block_of i c <> block_of j c'.
Proof.
  intros E HE key st Bk Est b nonce data msg out c t Bn Bd Bm Ee b' nonce' data' msg' out' c' t' Bn' Bd' Bm' Ee' i j Hi Hj Ne Em Ec.
  destruct (proj1 (C88_keystream_blocks_distinct E HE key st Bk Est b nonce data msg out c t Bn Bd Bm Ee
    b' nonce' data' msg' out' c' t' Bn' Bd' Bm' Ee' i j Hi Hj)) as [? ?]; [now rewrite Em, Ec|tauto].
Qed.
Print Assumptions C88_equal_blocks_encrypt_differently.
(** Two equal blocks of zeros in one message. *)
Example C88_ex : exists st c t, bc_new Aes128 ex_key = Ok st /\
  gcm_encrypt Aes128 Checked st (repeat 0 32) ex_nonce ex_data (repeat 7 32) = Ok (c, t) /\
  block_of 0 (repeat 0 32) = block_of 1 (repeat 0 32) /\ block_of 0 c <> block_of 1 c.
Proof.
  destruct gcm_new_ok as [st Est]. unfold gcm_new in Est.
  assert (Bk : bytes ex_key) by (apply BaseFacts.bytesb_spec; reflexivity).
  pose proof (T_Aes.C27_permutation Aes128 (or_introl eq_refl) ex_key st Bk Est) as (HB & _).
  pose proof (C30_gcm_is_sp800_38d Aes128 st HB Checked ex_nonce ex_data (repeat 0 32) (repeat 7 32)
    ltac:(ok_bytes) ltac:(ok_bytes) ltac:(ok_bytes) eq_refl (or_intror (proj1 (Z.leb_le (len (repeat 0 32)) checked_limit) eq_refl))) as Q. cbv zeta in Q.
  do 3 eexists. split; [exact Est|]. split; [exact Q|]. split; [reflexivity|].
  assert (Bn : bytes ex_nonce) by (apply BaseFacts.bytesb_spec; reflexivity).
  assert (Bd : bytes ex_data) by (apply BaseFacts.bytesb_spec; reflexivity).
  assert (Bm : bytes (repeat 0 32)) by (apply BaseFacts.bytesb_spec; reflexivity).
  eapply (C88_equal_blocks_encrypt_differently Aes128 (or_introl eq_refl) ex_key st Bk Est _ _ _ _ _ _ _ Bn Bd Bm Q _ _ _ _ _ _ _ Bn Bd Bm Q 0%nat 1%nat);
    [cbn; lia|cbn; lia|right; discriminate|reflexivity].
Qed.
