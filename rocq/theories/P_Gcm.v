(** Proofs about M_Gcm. *)
From Verif Require Import BaseFacts Mono M_Util M_Poly1305 M_Aes M_Ghash M_Gcm S_Gf2 S_Gcm P_Util P_Ctr P_Gf2 P_Ghash.
From Coq Require Import ZifyBool ZifyNat.

Definition is_block (l : list Z) : Prop := length l = 16%nat /\ bytes l.
(** The longest message a build with overflow checks can process. *)
Definition GLIM : Z := 2 ^ 36 - 64.

Lemma ghash_mono H A C : rle (ghash Checked H A C) (ghash Unchecked H A C).
Proof. unfold ghash. mono. Qed.

Lemma concat_xorl n f (Hn : (0 < n)%nat) (Hf : forall i, length (f i) = n) : forall X s,
  concat (map (fun '(i, Xi) => xorl Xi (f i)) (combine (seq s (length (chunks n X))) (chunks n X))) =
  xorl X (concat (map f (seq s (length (chunks n X))))).
Proof.
  intros X. induction X as [|X Hne IH] using (chunks_ind n Hn); intros s.
  - rewrite chunks_nil. reflexivity.
  - rewrite (chunks_cons n X) by assumption. cbn [length seq combine map concat]. rewrite IH.
    destruct (Nat.le_gt_cases n (length X)) as [H|H].
    + rewrite <- xorl_app by (rewrite Hf, firstn_length; lia). now rewrite firstn_skipn.
    + rewrite (skipn_all2 X) by lia. rewrite chunks_nil. cbn [length seq map concat].
      rewrite !app_nil_r. rewrite firstn_all2 by lia. reflexivity.
Qed.

Lemma inc32_counter nonce i : length nonce = 12%nat ->
  inc32 (nonce ++ be_encode 4 i) = nonce ++ be_encode 4 (i + 1).
Proof.
  intros L. unfold inc32. rewrite firstn_app, skipn_app, L, Nat.sub_diag, firstn_O, skipn_O, app_nil_r.
  rewrite firstn_all2, skipn_all2 by lia. f_equal. cbn [app].
  rewrite be_decode_encode. change (256 ^ Z.of_nat 4) with (2 ^ 32). rewrite Zplus_mod_idemp_l.
  apply (be_encode_mod 4).
Qed.
Lemma iter_inc32 nonce : length nonce = 12%nat -> forall n i,
  Nat.iter n inc32 (nonce ++ be_encode 4 i) = nonce ++ be_encode 4 ((i + Z.of_nat n) mod 2 ^ 32).
Proof.
  intros L n i. rewrite (be_encode_mod 4). revert i. induction n as [|n IH]; intros i.
  - cbn [Nat.iter nat_rect]. now rewrite Z.add_0_r.
  - rewrite iter_succ_r, inc32_counter, IH by assumption. do 2 f_equal. lia.
Qed.

Section S.
Variable E : BlockCipher.
Variable k : bc_state E.
Hypothesis HE : forall x, is_block x -> is_block (bc_permute E k x).
Variable nonce : list Z.
Hypothesis Hn : length nonce = 12%nat.
Hypothesis Bn : bytes nonce.
Let CIPH := bc_permute E k.

Definition cblk (i : Z) : list Z := bc_permute E k (nonce ++ be_encode 4 i).
Lemma ctr_block i : is_block (nonce ++ be_encode 4 i).
Proof. clear HE. split; [rewrite app_length, Hn, be_encode_length; reflexivity|]. apply bytes_app. split; [assumption|apply be_encode_bytes]. Qed.
Lemma cblk_block i : is_block (cblk i).
Proof. apply HE, ctr_block. Qed.
Lemma counter_ok : counter nonce = Ok (nonce ++ repeat 0 4).
Proof.
  clear HE Bn. unfold counter. rewrite Hn. cbn [Nat.eqb assertb bind]. rewrite write_slice_ok by (rewrite repeat_length; lia).
  cbn [firstn app Nat.add]. rewrite skipn_repeat, Hn. reflexivity.
Qed.
Lemma gcm_block_eq i : gcm_block E k (nonce ++ repeat 0 4) i = cblk i.
Proof.
  clear HE Bn. unfold gcm_block, cblk. rewrite firstn_app, Hn, Nat.sub_diag, firstn_O, app_nil_r, firstn_all2 by lia. reflexivity.
Qed.

Definition gN (m : list Z) : nat := length (chunks 16 m).
Definition gcrypt (m : list Z) : list Z := xorl m (ctr_stream cblk 2 (gN m)).
Lemma gN_len m : Z.of_nat (gN m) = (len m + 15) / 16.
Proof.
  clear HE Hn Bn. change (Z.of_nat (gN m)) with (len (chunks 16 m)). rewrite (chunks_len 16 ltac:(lia)). change (Z.of_nat 16) with 16.
  f_equal. lia.
Qed.
Lemma gN_16 m : (length m <= 16 * gN m)%nat.
Proof. clear HE Hn Bn. pose proof (gN_len m) as H. pose proof (Z.mul_succ_div_gt (len m + 15) 16 ltac:(lia)). unfold len in *. lia. Qed.
Lemma gN_same m m' : length m = length m' -> gN m = gN m'.
Proof. clear HE Hn Bn. intros H. pose proof (gN_len m). pose proof (gN_len m'). unfold len in *. rewrite H in *. lia. Qed.
Lemma gstream_length i N : length (ctr_stream cblk i N) = (16 * N)%nat.
Proof. rewrite (ctr_stream_length _ 16); [lia|]. intros; apply cblk_block. Qed.
Lemma gcrypt_length m : length (gcrypt m) = length m.
Proof. unfold gcrypt. rewrite xorl_length, gstream_length. pose proof (gN_16 m). lia. Qed.
Lemma gcrypt_gcrypt m : gcrypt (gcrypt m) = m.
Proof.
  unfold gcrypt at 1. rewrite (gN_same (gcrypt m) m) by apply gcrypt_length. unfold gcrypt.
  apply xorl_cancel. rewrite gstream_length. apply gN_16.
Qed.
Lemma gcrypt_bytes m : bytes m -> bytes (gcrypt m).
Proof. intros H. apply xorl_bytes; [assumption|]. apply bytes_concat, Forall_map, Forall_forall. intros j _. apply cblk_block. Qed.

Lemma gcrypt_spec m : gcrypt m = gcm_ciphertext CIPH nonce m.
Proof.
  unfold gcm_ciphertext, J0. change [0; 0; 0; 1] with (be_encode 4 1). rewrite inc32_counter by assumption.
  unfold GCTR. change (1 + 1) with 2.
  rewrite (concat_xorl 16 (fun i => CIPH (Nat.iter i inc32 (nonce ++ be_encode 4 2)))); [|lia|].
  - unfold gcrypt, ctr_stream. apply (f_equal (fun s => xorl m (concat s))). apply map_ext. intros j.
    rewrite iter_inc32 by assumption. reflexivity.
  - intros i. rewrite iter_inc32 by assumption. apply HE, ctr_block.
Qed.

Lemma gcm_process_ok b m out : length m = length out -> b = Unchecked \/ len m <= GLIM ->
  gcm_process E b k (nonce ++ repeat 0 4) m out = Ok (gcrypt m).
Proof.
  intros Hl Hb. unfold gcm_process.
  assert (Ef : forall ins outs i, ctr_loop b (gcm_block E k (nonce ++ repeat 0 4)) i ins outs = ctr_loop b cblk i ins outs).
  { induction ins as [|c ins IH]; intros [|o outs] i; cbn [ctr_loop]; try reflexivity.
    rewrite gcm_block_eq. destruct (uchk b 32 (i + 1)); cbn [bind]; [|reflexivity]. now rewrite IH. }
  rewrite Ef.
  destruct (ctr_loop_ok 16 cblk ltac:(lia) ltac:(intros; apply cblk_block) b m out 2 Hl ltac:(lia)) as (outs & Eo & C).
  { destruct Hb as [|Hb]; [auto|right]. change (len (chunks 16 m)) with (Z.of_nat (gN m)). rewrite gN_len.
    pose proof (Z.mul_div_le (len m + 15) 16 ltac:(lia)). unfold GLIM in Hb. lia. }
  rewrite Eo. cbn [bind]. rewrite C. reflexivity.
Qed.
Lemma gcm_process_panic m out : length m = length out -> GLIM < len m ->
  gcm_process E Checked k (nonce ++ repeat 0 4) m out = Panic.
Proof.
  intros Hl Hb. unfold gcm_process.
  assert (Ef : forall ins outs i, ctr_loop Checked (gcm_block E k (nonce ++ repeat 0 4)) i ins outs = ctr_loop Checked cblk i ins outs).
  { induction ins as [|c ins IH]; intros [|o outs] i; cbn [ctr_loop]; try reflexivity.
    rewrite gcm_block_eq. destruct (uchk Checked 32 (i + 1)); cbn [bind]; [|reflexivity]. now rewrite IH. }
  rewrite Ef.
  rewrite (ctr_loop_panic 16 cblk ltac:(lia) ltac:(intros; apply cblk_block)); [reflexivity|assumption|lia|].
  change (len (chunks 16 m)) with (Z.of_nat (gN m)). rewrite gN_len.
  pose proof (Z.mul_succ_div_gt (len m + 15) 16 ltac:(lia)). unfold GLIM in Hb. lia.
Qed.

Lemma gcm_tag_ok b data ct : bytes data -> bytes ct -> len data < 2 ^ 61 -> len ct < 2 ^ 61 ->
  gcm_tag E b k ct data (nonce ++ repeat 0 4) = Ok (gcm_auth_tag CIPH nonce data ct).
Proof.
  intros Bd Bc Ld Lc. unfold gcm_tag. rewrite gcm_block_eq.
  assert (B0 : is_block (CIPH (repeat 0 16))).
  { apply HE. split; [reflexivity|]. apply bytes_repeat. unfold byte_ok; lia. }
  fold CIPH. rewrite ghash_ok by (try apply B0; assumption). cbn [bind].
  unfold gcm_auth_tag. set (S := GHASH _ _).
  assert (LS : length S = 16%nat) by (apply poly_block_ok).
  unfold GCTR. rewrite (chunks_short 16 S) by (try lia; destruct S; discriminate).
  cbn [length seq combine map concat Nat.iter nat_rect]. rewrite app_nil_r. rewrite xorl_comm. reflexivity.
Qed.
Lemma tag_block data ct : is_block (gcm_auth_tag CIPH nonce data ct).
Proof.
  unfold gcm_auth_tag. set (S := GHASH _ _).
  assert (BS : is_block S) by (split; apply poly_block_ok).
  unfold GCTR. rewrite (chunks_short 16 S) by (destruct BS; try lia; destruct S; discriminate).
  cbn [length seq combine map concat Nat.iter nat_rect]. rewrite app_nil_r.
  assert (BJ : is_block (CIPH (J0 nonce))) by (apply (cblk_block 1)).
  split; [rewrite xorl_length; destruct BS, BJ; lia|]. apply xorl_bytes; [apply BS|apply BJ].
Qed.

Lemma bounds_ok m c data : length m = length c -> len m < 2 ^ 36 - 32 -> len data < 2 ^ 61 ->
  check_bounds m c nonce data = Ok tt.
Proof.
  clear HE Bn. intros H1 H2 H3. unfold check_bounds. rewrite Hn. cbn [Nat.eqb assertb bind].
  rewrite (proj2 (Nat.eqb_eq _ _)) by assumption. cbn [assertb bind].
  rewrite (proj2 (Z.ltb_lt _ _)) by lia. cbn [assertb bind]. now rewrite (proj2 (Z.ltb_lt _ _)) by lia.
Qed.

Lemma gcm_encrypt_ok b msg data out : bytes msg -> bytes data -> length out = length msg ->
  len msg < 2 ^ 36 - 32 -> len data < 2 ^ 61 -> b = Unchecked \/ len msg <= GLIM ->
  gcm_encrypt E b k msg nonce data out =
    Ok (gcm_ciphertext CIPH nonce msg, gcm_auth_tag CIPH nonce data (gcm_ciphertext CIPH nonce msg)).
Proof.
  intros Bm Bd Ho Lm Ld Hb. unfold gcm_encrypt. rewrite bounds_ok by (try assumption; congruence). cbn [bind].
  rewrite counter_ok. cbn [bind]. rewrite gcm_process_ok by (try assumption; congruence). cbn [bind].
  rewrite <- gcrypt_spec. rewrite gcm_tag_ok; [reflexivity|assumption|now apply gcrypt_bytes|assumption|].
  unfold len in *. rewrite gcrypt_length. lia.
Qed.
Lemma gcm_encrypt_panic msg data out : length out = length msg -> GLIM < len msg ->
  gcm_encrypt E Checked k msg nonce data out = Panic.
Proof.
  intros Ho Hm. unfold gcm_encrypt. destruct (check_bounds msg out nonce data); [|reflexivity]. cbn [bind].
  rewrite counter_ok. cbn [bind]. rewrite gcm_process_panic by (try assumption; congruence). reflexivity.
Qed.
Lemma gcm_decrypt_true b ct data out : bytes ct -> bytes data -> length out = length ct ->
  len ct < 2 ^ 36 - 32 -> len data < 2 ^ 61 -> b = Unchecked \/ len ct <= GLIM ->
  gcm_decrypt E b k ct nonce data (gcm_auth_tag CIPH nonce data ct) out = Ok (gcm_ciphertext CIPH nonce ct, true).
Proof.
  intros Bm Bd Ho Lm Ld Hb. unfold gcm_decrypt. rewrite bounds_ok by (try assumption; unfold len in *; lia). cbn [bind].
  rewrite counter_ok. cbn [bind]. rewrite gcm_tag_ok by (try assumption; unfold len in *; lia). cbn [bind].
  destruct (verify_16_spec (gcm_auth_tag CIPH nonce data ct) (gcm_auth_tag CIPH nonce data ct)) as (v & -> & Hv).
  destruct v; [|exfalso; specialize (proj2 Hv eq_refl); discriminate]. cbn [bind].
  rewrite gcm_process_ok by (try assumption; congruence). cbn [bind]. now rewrite gcrypt_spec.
Qed.
Lemma gcm_decrypt_false b ct data out tag : bytes ct -> bytes data -> length out = length ct ->
  len ct < 2 ^ 36 - 32 -> len data < 2 ^ 61 -> tag <> gcm_auth_tag CIPH nonce data ct ->
  gcm_decrypt E b k ct nonce data tag out = Ok (out, false).
Proof.
  intros Bm Bd Ho Lm Ld Ht. unfold gcm_decrypt. rewrite bounds_ok by (try assumption; unfold len in *; lia). cbn [bind].
  rewrite counter_ok. cbn [bind]. rewrite gcm_tag_ok by (try assumption; unfold len in *; lia). cbn [bind].
  destruct (verify_16_spec (gcm_auth_tag CIPH nonce data ct) tag) as (v & -> & Hv).
  destruct v; [exfalso; apply Ht; symmetry; now apply Hv|]. reflexivity.
Qed.
Lemma gcm_ct_ct m : gcm_ciphertext CIPH nonce (gcm_ciphertext CIPH nonce m) = m.
Proof. rewrite <- !gcrypt_spec. apply gcrypt_gcrypt. Qed.
Lemma gcm_ct_length m : length (gcm_ciphertext CIPH nonce m) = length m.
Proof. rewrite <- gcrypt_spec. apply gcrypt_length. Qed.
Lemma gcm_ct_bytes m : bytes m -> bytes (gcm_ciphertext CIPH nonce m).
Proof. rewrite <- gcrypt_spec. apply gcrypt_bytes. Qed.

(** Byte [n] of the ciphertext. *)
Lemma gcrypt_nth m n : len m < 2 ^ 36 - 32 -> (n < length m)%nat ->
  nth n (gcrypt m) 0 = Z.lxor (nth n m 0) (nth (n mod 16) (cblk (2 + Z.of_nat (n / 16))) 0).
Proof.
  intros Hm H. pose proof (gN_16 m).
  assert (G : forall N i n, (n < 16 * N)%nat ->
    nth n (ctr_stream cblk i N) 0 = nth (n mod 16) (cblk ((i + Z.of_nat (n / 16)) mod 2 ^ 32)) 0).
  { clear n H Hm. induction N as [|N IH]; intros i n Hlt; [lia|]. rewrite ctr_stream_S.
    destruct (cblk_block (i mod 2 ^ 32)) as [L _].
    destruct (Nat.lt_ge_cases n 16) as [Hl|Hge].
    - rewrite app_nth1 by lia. rewrite Nat.mod_small, Nat.div_small by lia. now rewrite Z.add_0_r.
    - rewrite app_nth2 by lia. rewrite L, IH by lia.
      replace n with ((n - 16) + 1 * 16)%nat at 3 4 by lia. rewrite Nat.mod_add, Nat.div_add by lia.
      do 3 f_equal. lia. }
  unfold gcrypt.
  assert (X : forall l k n, (n < length l)%nat -> (n < length k)%nat -> nth n (xorl l k) 0 = Z.lxor (nth n l 0) (nth n k 0)).
  { clear. unfold xorl. induction l as [|x l IH]; intros [|y k] [|n] H1 H2; cbn [length] in *; try lia; cbn [zipwith nth]; [reflexivity|].
    apply IH; lia. }
  rewrite X by (try assumption; rewrite gstream_length; lia). rewrite G by lia.
  rewrite Z.mod_small; [reflexivity|]. unfold len in Hm.
  assert (n / 16 * 16 <= n)%nat by (rewrite Nat.mul_comm; apply Nat.mul_div_le; lia). lia.
Qed.
End S.

Lemma gcm_bad_args E b k msg nonce data tag out :
  length msg <> length out \/ length nonce <> 12%nat \/ 2 ^ 36 - 32 <= len msg \/ 2 ^ 61 <= len data ->
  gcm_encrypt E b k msg nonce data out = Panic /\ gcm_decrypt E b k msg nonce data tag out = Panic.
Proof.
  intros H. unfold gcm_encrypt, gcm_decrypt, check_bounds.
  destruct (Nat.eqb_spec 12 (length nonce)); cbn [assertb bind]; [|auto].
  destruct (Nat.eqb_spec (length msg) (length out)); cbn [assertb bind].
  - rewrite (proj2 (Nat.eqb_eq (length out) _)) by congruence. cbn [assertb bind].
    assert (len out = len msg) as -> by (unfold len; congruence).
    destruct (Z.ltb_spec (len msg + 32) (2 ^ 36)); cbn [assertb bind]; [|auto].
    destruct (Z.ltb_spec (len data) (2 ^ 61)); cbn [assertb bind]; [|auto]. exfalso. lia.
  - rewrite (proj2 (Nat.eqb_neq (length out) _)) by congruence. auto.
Qed.

(** GCM only applies the cipher to 16-byte blocks. *)
Lemma GCTR_ext f g nonce i X : length nonce = 12%nat -> bytes nonce -> (forall x, is_block x -> f x = g x) ->
  GCTR f (nonce ++ be_encode 4 i) X = GCTR g (nonce ++ be_encode 4 i) X.
Proof.
  intros Hn Bn H. unfold GCTR. f_equal. apply map_ext. intros [j Xj]. rewrite H; [reflexivity|].
  rewrite iter_inc32 by assumption. now apply ctr_block.
Qed.
Lemma gcm_ct_ext f g nonce m : length nonce = 12%nat -> bytes nonce -> (forall x, is_block x -> f x = g x) ->
  gcm_ciphertext f nonce m = gcm_ciphertext g nonce m.
Proof.
  intros Hn Bn H. unfold gcm_ciphertext, J0. change [0; 0; 0; 1] with (be_encode 4 1). rewrite inc32_counter by assumption.
  now apply GCTR_ext.
Qed.
Lemma gcm_tag_ext f g nonce A C : length nonce = 12%nat -> bytes nonce -> (forall x, is_block x -> f x = g x) ->
  gcm_auth_tag f nonce A C = gcm_auth_tag g nonce A C.
Proof.
  intros Hn Bn H. unfold gcm_auth_tag. rewrite (H (repeat 0 16)).
  - unfold J0. change [0; 0; 0; 1] with (be_encode 4 1). now apply GCTR_ext.
  - split; [reflexivity|]. apply bytes_repeat. unfold byte_ok; lia.
Qed.
