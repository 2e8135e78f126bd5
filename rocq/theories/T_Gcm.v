(** Property theorems C29-C35: GHASH and GCM. *)
From Coq Require Import String.
From Verif Require Import Base Hex M_Aes M_Ghash M_Gcm S_Gf2 S_Gcm S_Aes.
From Verif Require P_Aes P_Ghash P_Gcm P_Gf2 P_Ctr T_Aes BaseFacts.

Definition is_block (l : list Z) : Prop := length l = 16%nat /\ bytes l.
(** What the Rust type [fn permute(&self, input: &[u8; 16]) -> [u8; 16]] guarantees for a cipher with key state [k]. *)
Definition block_cipher (E : BlockCipher) (k : bc_state E) : Prop :=
  forall x, is_block x -> is_block (bc_permute E k x).
Definition gcm_nonce (l : list Z) : Prop := length l = 12%nat /\ bytes l.
(** The documented limits. *)
Definition gcm_message (l : list Z) : Prop := bytes l /\ len l < 2 ^ 36 - 32.
Definition gcm_data (l : list Z) : Prop := bytes l /\ len l < 2 ^ 61.
(** The longest message that a build with overflow checks can process. *)
Definition checked_limit : Z := 2 ^ 36 - 64.

Ltac ok_bytes := repeat split; try apply BaseFacts.bytesb_spec; reflexivity.

(** ** C29 *)
Theorem C29_ghash : forall b H A C, is_block H -> gcm_data A -> gcm_data C ->
  ghash b H A C = Ok (GHASH H (ghash_input A C)).
Proof. intros b H A C [LH BH] [BA LA] [BC LC]. now apply P_Ghash.ghash_ok. Qed.
Print Assumptions C29_ghash.
(** The multiplication of the specification: [fmul] returns the remainder, of degree less than 128, of the product. *)
Theorem C29_mul_is_remainder : forall a b, 0 <= a < 2 ^ 128 -> 0 <= b < 2 ^ 128 ->
  0 <= gf128_mul a b < 2 ^ 128 /\
  exists q, 0 <= q < 2 ^ 128 /\ pmul 128 a b = Z.lxor (pmul 128 GCM_MODULUS q) (gf128_mul a b).
Proof. intros a b Ha Hb. exact (P_Gf2.fmul_div 128 GCM_MODULUS a b ltac:(lia) ltac:(vm_compute; split; [discriminate|reflexivity]) Ha Hb). Qed.
Print Assumptions C29_mul_is_remainder.
Example C29_ex : GHASH (h2b "66e94bd4ef8a2c3b884cfa59ca342b2e") (ghash_input [] (h2b "0388dace60b6a392f328c2b971b2fe78"))
  = h2b "f38cbb1ad69223dcc3457ae5b6b0f885".
Proof. vm_compute. reflexivity. Qed.

(** ** C30 *)
Theorem C30_gcm_is_sp800_38d : forall E k, block_cipher E k -> forall b nonce data msg out,
  gcm_nonce nonce -> gcm_data data -> gcm_message msg -> length out = length msg ->
  b = Unchecked \/ len msg <= checked_limit ->
  let CIPH := bc_permute E k in
  let C := gcm_ciphertext CIPH nonce msg in
  gcm_encrypt E b k msg nonce data out = Ok (C, gcm_auth_tag CIPH nonce data C).
Proof. intros E k HE b nonce data msg out [Hn Bn] [Bd Ld] [Bm Lm] Ho Hb. now apply P_Gcm.gcm_encrypt_ok. Qed.
Print Assumptions C30_gcm_is_sp800_38d.

(** AES-GCM, [Gcm::<AesN>::new(key).encrypt(...)]: GCM of the FIPS 197 cipher. *)
Theorem C30_aes_gcm : forall E Nk,
  (E, Nk) = (Aes128, 4%nat) \/ (E, Nk) = (Aes192, 6%nat) \/ (E, Nk) = (Aes256, 8%nat) ->
  forall b key nonce data msg out, length key = (4 * Nk)%nat -> bytes key ->
  gcm_nonce nonce -> gcm_data data -> gcm_message msg -> length out = length msg ->
  b = Unchecked \/ len msg <= checked_limit ->
  let C := gcm_ciphertext (Cipher Nk key) nonce msg in
  (let! k := gcm_new E key in gcm_encrypt E b k msg nonce data out) =
    Ok (C, gcm_auth_tag (Cipher Nk key) nonce data C).
Proof.
  intros E Nk HE b key nonce data msg out Hk Bk Hn Hd Hm Ho Hb. cbv zeta.
  assert (Hst : exists st, bc_new E key = Ok st /\ forall x, is_block x -> bc_permute E st x = Cipher Nk key x).
  { destruct (T_Aes.C25_aes_is_fips197 E Nk HE key (repeat 0 16) Hk Bk) as (st & E1 & _);
      [reflexivity|apply BaseFacts.bytes_repeat; unfold byte_ok; lia|].
    exists st. split; [exact E1|]. intros x [Lx Bx].
    destruct (T_Aes.C25_aes_is_fips197 E Nk HE key x Hk Bk Lx Bx) as (st' & E1' & E2). congruence. }
  destruct Hst as (st & E1 & Ec). unfold gcm_new. rewrite E1. cbn [bind].
  assert (HC : block_cipher E st).
  { assert (HE' : E = Aes128 \/ E = Aes192 \/ E = Aes256)
      by (destruct HE as [H|[H|H]]; injection H; intros; subst; auto).
    exact (proj1 (T_Aes.C27_permutation E HE' key st Bk E1)). }
  pose proof (C30_gcm_is_sp800_38d E st HC b nonce data msg out Hn Hd Hm Ho Hb) as H. cbv zeta in H. rewrite H.
  destruct Hn as [Ln Bn].
  rewrite (P_Gcm.gcm_ct_ext _ (Cipher Nk key) nonce msg Ln Bn Ec).
  rewrite (P_Gcm.gcm_tag_ext _ (Cipher Nk key) nonce data _ Ln Bn Ec). reflexivity.
Qed.
Print Assumptions C30_aes_gcm.
(** Test case 2 of the GCM specification: the zero key, nonce and message block. *)
Definition ex_key : list Z := repeat 0 16.
Definition ex_nonce : list Z := repeat 0 12.
Definition ex_data : list Z := [].
Definition ex_msg : list Z := repeat 0 16.
Definition ex_ct : list Z := h2b "0388dace60b6a392f328c2b971b2fe78".
Definition ex_tag : list Z := h2b "ab6e47d42cec13bdf53a67b21257bddf".
Example C30_ex : (let! k := gcm_new Aes128 ex_key in gcm_encrypt Aes128 Checked k ex_msg ex_nonce ex_data (repeat 7 16)) = Ok (ex_ct, ex_tag).
Proof. vm_compute. reflexivity. Qed.
Example C30_hyps : length ex_key = 16%nat /\ bytes ex_key /\ gcm_nonce ex_nonce /\ gcm_data ex_data /\ gcm_message ex_msg.
Proof. ok_bytes. Qed.

(** ** C31 *)
Theorem C31_roundtrip : forall E k, block_cipher E k -> forall b b' nonce data msg out out' c t,
  bytes nonce -> bytes data -> bytes msg ->
  gcm_encrypt E b k msg nonce data out = Ok (c, t) ->
  b' = b \/ b' = Unchecked -> length out' = length msg ->
  gcm_decrypt E b' k c nonce data t out' = Ok (msg, true).
Proof.
  intros E k HE b b' nonce data msg out out' c t Bn Bd Bm Ee Hb Ho.
  assert (Hargs : ~ (length msg <> length out \/ length nonce <> 12%nat \/ 2 ^ 36 - 32 <= len msg \/ 2 ^ 61 <= len data)).
  { intros H. rewrite (proj1 (P_Gcm.gcm_bad_args E b k msg nonce data [] out H)) in Ee. discriminate. }
  assert (Hl : length out = length msg) by lia. assert (Hn : length nonce = 12%nat) by lia.
  assert (Hlim : b = Unchecked \/ len msg <= checked_limit).
  { destruct b; [right|left; reflexivity]. destruct (Z.le_gt_cases (len msg) checked_limit) as [|Hgt]; [assumption|].
    rewrite (P_Gcm.gcm_encrypt_panic E k HE nonce Hn Bn) in Ee by assumption. discriminate. }
  rewrite (P_Gcm.gcm_encrypt_ok E k HE nonce Hn Bn) in Ee by (try assumption; lia). injection Ee as <- <-.
  rewrite (P_Gcm.gcm_decrypt_true E k HE nonce Hn Bn).
  - now rewrite (P_Gcm.gcm_ct_ct E k HE nonce Hn Bn).
  - now apply (P_Gcm.gcm_ct_bytes E k HE nonce Hn Bn).
  - assumption.
  - now rewrite (P_Gcm.gcm_ct_length E k HE nonce Hn Bn).
  - unfold len. rewrite (P_Gcm.gcm_ct_length E k HE nonce Hn Bn). fold (len msg). lia.
  - lia.
  - unfold len. rewrite (P_Gcm.gcm_ct_length E k HE nonce Hn Bn). fold (len msg). destruct Hb; subst; auto.
Qed.
Print Assumptions C31_roundtrip.
Lemma aes128_cipher k : gcm_new Aes128 ex_key = Ok k -> block_cipher Aes128 k.
Proof.
  intros Ek. refine (proj1 (T_Aes.C27_permutation Aes128 (or_introl eq_refl) ex_key k _ Ek)).
  apply BaseFacts.bytesb_spec; reflexivity.
Qed.
Lemma gcm_new_ok : exists k, gcm_new Aes128 ex_key = Ok k.
Proof.
  destruct (gcm_new Aes128 ex_key) as [k|] eqn:Ek; [now exists k|].
  apply (T_Aes.C28_new_panics Aes128 16 (or_introl eq_refl)) in Ek. exfalso. apply Ek. reflexivity.
Qed.
Example C31_ex : exists k, gcm_new Aes128 ex_key = Ok k /\ block_cipher Aes128 k /\
  gcm_decrypt Aes128 Unchecked k ex_ct ex_nonce ex_data ex_tag (repeat 9 16) = Ok (ex_msg, true).
Proof.
  destruct gcm_new_ok as [k Ek]. pose proof (aes128_cipher k Ek) as HE. pose proof C30_ex as H. rewrite Ek, BaseFacts.bind_ok in H.
  exists k. split; [exact Ek|]. split; [exact HE|].
  refine (C31_roundtrip Aes128 k HE Checked Unchecked ex_nonce ex_data ex_msg (repeat 7 16) (repeat 9 16) ex_ct ex_tag _ _ _ H _ _).
  - apply BaseFacts.bytesb_spec; reflexivity.
  - apply BaseFacts.bytesb_spec; reflexivity.
  - apply BaseFacts.bytesb_spec; reflexivity.
  - right. reflexivity.
  - reflexivity.
Qed.

(** ** C32 *)
Theorem C32_decrypt_accepts_exactly : forall E k, block_cipher E k -> forall nonce data ct,
  gcm_nonce nonce -> gcm_data data -> gcm_message ct ->
  let CIPH := bc_permute E k in
  let t := gcm_auth_tag CIPH nonce data ct in
  is_block t /\
  (forall b out, length out = length ct -> b = Unchecked \/ len ct <= checked_limit ->
     gcm_decrypt E b k ct nonce data t out = Ok (gcm_ciphertext CIPH nonce ct, true)) /\
  (forall b out tag, length out = length ct -> tag <> t ->
     gcm_decrypt E b k ct nonce data tag out = Ok (out, false)) /\
  (* and [t] is the tag that encrypt gives to the message that encrypts to [ct] *)
  (forall b out, length out = length ct -> b = Unchecked \/ len ct <= checked_limit ->
     gcm_encrypt E b k (gcm_ciphertext CIPH nonce ct) nonce data out = Ok (ct, t)).
Proof.
  intros E k HE nonce data ct [Hn Bn] [Bd Ld] [Bc Lc]. cbv zeta.
  split; [exact (P_Gcm.tag_block E k HE nonce Hn Bn data ct)|]. split; [|split].
  - intros b out Ho Hb. now apply (P_Gcm.gcm_decrypt_true E k HE nonce Hn Bn).
  - intros b out tag Ho Ht. now apply (P_Gcm.gcm_decrypt_false E k HE nonce Hn).
  - intros b out Ho Hb.
    assert (L : len (gcm_ciphertext (bc_permute E k) nonce ct) = len ct)
      by (unfold len; now rewrite (P_Gcm.gcm_ct_length E k HE nonce Hn Bn)).
    rewrite (P_Gcm.gcm_encrypt_ok E k HE nonce Hn Bn).
    + now rewrite (P_Gcm.gcm_ct_ct E k HE nonce Hn Bn).
    + now apply (P_Gcm.gcm_ct_bytes E k HE nonce Hn Bn).
    + assumption.
    + now rewrite (P_Gcm.gcm_ct_length E k HE nonce Hn Bn).
    + lia.
    + assumption.
    + rewrite L. assumption.
Qed.
Print Assumptions C32_decrypt_accepts_exactly.
Example C32_ex : (let! k := gcm_new Aes128 ex_key in gcm_decrypt Aes128 Checked k [] ex_nonce [] (repeat 0 4) []) = Ok ([], false).
Proof. vm_compute. reflexivity. Qed.

(** ** C33 *)
Theorem C33_panics_exactly : forall E k, block_cipher E k -> forall nonce data msg tag out,
  bytes nonce -> bytes data -> bytes msg ->
  let bad := length msg <> length out \/ length nonce <> 12%nat \/ 2 ^ 36 - 32 <= len msg \/ 2 ^ 61 <= len data in
  (gcm_encrypt E Unchecked k msg nonce data out = Panic <-> bad) /\
  (gcm_decrypt E Unchecked k msg nonce data tag out = Panic <-> bad).
Proof.
  intros E k HE nonce data msg tag out Bn Bd Bm bad.
  assert (Hdec : bad \/ ~ bad) by (unfold bad; lia).
  destruct Hdec as [H|H].
  - destruct (P_Gcm.gcm_bad_args E Unchecked k msg nonce data tag out H) as [-> ->]. tauto.
  - assert (Hl : length out = length msg) by (unfold bad in H; lia). assert (Hn : length nonce = 12%nat) by (unfold bad in H; lia).
    split; (split; [|tauto]).
    + rewrite (P_Gcm.gcm_encrypt_ok E k HE nonce Hn Bn) by (try assumption; unfold bad in H; auto; lia). discriminate.
    + destruct (list_eq_dec Z.eq_dec tag (gcm_auth_tag (bc_permute E k) nonce data msg)) as [->|Ht].
      * rewrite (P_Gcm.gcm_decrypt_true E k HE nonce Hn Bn) by (try assumption; unfold bad in H; auto; lia). discriminate.
      * rewrite (P_Gcm.gcm_decrypt_false E k HE nonce Hn) by (try assumption; unfold bad in H; auto; lia). discriminate.
Qed.
Print Assumptions C33_panics_exactly.
(** With overflow checks the same holds for messages up to [checked_limit]. *)
Theorem C33_panics_exactly_checked : forall E k, block_cipher E k -> forall nonce data msg tag out,
  bytes nonce -> bytes data -> bytes msg -> len msg <= checked_limit ->
  let bad := length msg <> length out \/ length nonce <> 12%nat \/ 2 ^ 61 <= len data in
  (gcm_encrypt E Checked k msg nonce data out = Panic <-> bad) /\
  (gcm_decrypt E Checked k msg nonce data tag out = Panic <-> bad).
Proof.
  intros E k HE nonce data msg tag out Bn Bd Bm Hlim bad.
  assert (Hdec : bad \/ ~ bad) by (unfold bad; lia).
  destruct Hdec as [H|H].
  - destruct (P_Gcm.gcm_bad_args E Checked k msg nonce data tag out) as [-> ->]; [unfold bad in H; lia|]. tauto.
  - assert (Hl : length out = length msg) by (unfold bad in H; lia). assert (Hn : length nonce = 12%nat) by (unfold bad in H; lia).
    unfold checked_limit in Hlim.
    split; (split; [|tauto]).
    + rewrite (P_Gcm.gcm_encrypt_ok E k HE nonce Hn Bn) by (try assumption; unfold P_Gcm.GLIM; unfold bad in H; auto; lia). discriminate.
    + destruct (list_eq_dec Z.eq_dec tag (gcm_auth_tag (bc_permute E k) nonce data msg)) as [->|Ht].
      * rewrite (P_Gcm.gcm_decrypt_true E k HE nonce Hn Bn) by (try assumption; unfold P_Gcm.GLIM; unfold bad in H; auto; lia). discriminate.
      * rewrite (P_Gcm.gcm_decrypt_false E k HE nonce Hn) by (try assumption; unfold bad in H; auto; lia). discriminate.
Qed.
Print Assumptions C33_panics_exactly_checked.
Example C33_ex : (let! k := gcm_new Aes128 ex_key in gcm_encrypt Aes128 Unchecked k [1] ex_nonce [] []) = Panic /\
  (let! k := gcm_new Aes128 ex_key in gcm_encrypt Aes128 Unchecked k [1] [] [] [0]) = Panic.
Proof. split; vm_compute; reflexivity. Qed.

(** ** C34: false.  With overflow checks [encrypt] panics on every message longer than 2^36-64 bytes, although the
    documentation promises to panic only from 2^36-32 bytes on. *)
Theorem C34_checked_limit_refuted : forall E k, block_cipher E k -> forall nonce data,
  gcm_nonce nonce -> gcm_data data ->
  exists msg, gcm_message msg /\ forall out, length out = length msg ->
    gcm_encrypt E Checked k msg nonce data out = Panic /\
    (exists c t, gcm_encrypt E Unchecked k msg nonce data out = Ok (c, t)).
Proof.
  intros E k HE nonce data [Hn Bn] [Bd Ld].
  assert (X : exists m, len m = 2 ^ 36 - 63 /\ bytes m).
  { exists (repeat 0 (Z.to_nat (2 ^ 36 - 63))). split; [unfold len; rewrite repeat_length; lia|].
    apply BaseFacts.bytes_repeat; unfold byte_ok; lia. }
  destruct X as (m & L & B). exists m.
  split; [split; [exact B|lia]|]. intros out Ho. split.
  - apply (P_Gcm.gcm_encrypt_panic E k HE nonce Hn Bn); [assumption|]. rewrite L. unfold P_Gcm.GLIM. lia.
  - do 2 eexists.
    exact (P_Gcm.gcm_encrypt_ok E k HE nonce Hn Bn Unchecked m data out B Bd Ho ltac:(lia) Ld (or_introl eq_refl)).
Qed.
Print Assumptions C34_checked_limit_refuted.
(** What holds: the exact limit of such a build. *)
Theorem C34_exact_limit_partial : forall E k, block_cipher E k -> forall nonce data msg out,
  gcm_nonce nonce -> gcm_data data -> bytes msg -> length out = length msg ->
  (gcm_encrypt E Checked k msg nonce data out <> Panic <-> len msg <= 2 ^ 36 - 64).
Proof.
  intros E k HE nonce data msg out [Hn Bn] [Bd Ld] Bm Ho. split.
  - intros H. destruct (Z.le_gt_cases (len msg) (2 ^ 36 - 64)) as [|Hgt]; [assumption|].
    exfalso. apply H. now apply (P_Gcm.gcm_encrypt_panic E k HE nonce Hn Bn).
  - intros H. rewrite (P_Gcm.gcm_encrypt_ok E k HE nonce Hn Bn) by (try assumption; unfold P_Gcm.GLIM; auto; lia). discriminate.
Qed.
Print Assumptions C34_exact_limit_partial.

(** ** C35: byte [n] of the ciphertext uses the encrypted counter block [counter_block nonce (n / 16)]; these blocks are
    pairwise distinct, and distinct from the pre-counter block (which masks the tag) and from the zero block. *)
Definition counter_block (nonce : list Z) (i : nat) : list Z := nonce ++ be_encode 4 (2 + Z.of_nat i).
Theorem C35_counter_blocks_distinct : forall E k, block_cipher E k -> forall b nonce data msg out c t,
  bytes nonce -> bytes data -> bytes msg ->
  gcm_encrypt E b k msg nonce data out = Ok (c, t) ->
  length c = length msg /\
  (forall n, (n < length msg)%nat ->
     nth n c 0 = Z.lxor (nth n msg 0) (nth (n mod 16) (bc_permute E k (counter_block nonce (n / 16))) 0)) /\
  t = xorl (bc_permute E k (J0 nonce)) (GHASH (bc_permute E k (repeat 0 16)) (ghash_input data c)) /\
  (forall i j, (16 * i < length msg)%nat -> (16 * j < length msg)%nat ->
     counter_block nonce i = counter_block nonce j -> i = j) /\
  (forall i, (16 * i < length msg)%nat -> counter_block nonce i <> J0 nonce /\ counter_block nonce i <> repeat 0 16) /\
  J0 nonce <> repeat 0 16.
Proof.
  intros E k HE b nonce data msg out c t Bn Bd Bm Ee.
  assert (Hargs : ~ (length msg <> length out \/ length nonce <> 12%nat \/ 2 ^ 36 - 32 <= len msg \/ 2 ^ 61 <= len data)).
  { intros H. rewrite (proj1 (P_Gcm.gcm_bad_args E b k msg nonce data [] out H)) in Ee. discriminate. }
  assert (Hl : length out = length msg) by lia. assert (Hn : length nonce = 12%nat) by lia.
  assert (Hlim : b = Unchecked \/ len msg <= checked_limit).
  { destruct b; [right|left; reflexivity]. destruct (Z.le_gt_cases (len msg) checked_limit) as [|Hgt]; [assumption|].
    rewrite (P_Gcm.gcm_encrypt_panic E k HE nonce Hn Bn) in Ee by assumption. discriminate. }
  assert (Lm : len msg < 2 ^ 36 - 32) by lia.
  rewrite (P_Gcm.gcm_encrypt_ok E k HE nonce Hn Bn) in Ee by (try assumption; lia). injection Ee as <- <-.
  assert (Inj : forall i j, 0 <= i < 2 ^ 32 -> 0 <= j < 2 ^ 32 -> nonce ++ be_encode 4 i = nonce ++ be_encode 4 j -> i = j).
  { intros i j Hi Hj Eij. apply app_inv_head in Eij. apply (f_equal be_decode) in Eij. rewrite !BaseFacts.be_decode_encode in Eij.
    change (256 ^ Z.of_nat 4) with (2 ^ 32) in Eij. rewrite !Z.mod_small in Eij by assumption. exact Eij. }
  assert (Zero : forall i, 0 <= i < 2 ^ 32 -> nonce ++ be_encode 4 i = repeat 0 16 -> i = 0).
  { intros i Hi Ei. change (repeat 0 16) with (repeat 0 12 ++ be_encode 4 0) in Ei.
    assert (nonce = repeat 0 12) as ->.
    { apply (f_equal (firstn 12)) in Ei. rewrite !firstn_app, repeat_length, Hn, Nat.sub_diag, !firstn_O, !app_nil_r in Ei.
      rewrite firstn_all2 in Ei by lia. exact Ei. }
    apply app_inv_head in Ei. apply (f_equal be_decode) in Ei. rewrite !BaseFacts.be_decode_encode in Ei.
    change (256 ^ Z.of_nat 4) with (2 ^ 32) in Ei. rewrite !Z.mod_small in Ei by lia. exact Ei. }
  assert (Rng : forall i, (16 * i < length msg)%nat -> 2 <= 2 + Z.of_nat i < 2 ^ 32) by (intros i Hi; unfold len in Lm; lia).
  split; [now rewrite (P_Gcm.gcm_ct_length E k HE nonce Hn Bn)|]. split; [|split; [|split; [|split] ] ].
  - intros n Hlt. rewrite <- (P_Gcm.gcrypt_spec E k HE nonce Hn Bn).
    rewrite (P_Gcm.gcrypt_nth E k HE nonce Hn Bn) by assumption. reflexivity.
  - rewrite BaseFacts.xorl_comm. unfold gcm_auth_tag, GCTR. set (S := GHASH _ _).
    assert (LS : length S = 16%nat) by (apply P_Ghash.poly_block_ok).
    rewrite (BaseFacts.chunks_short 16 S) by (try lia; destruct S; discriminate).
    cbn [length seq combine map concat Nat.iter nat_rect]. now rewrite app_nil_r.
  - intros i j Hi Hj Eij. pose proof (Rng i Hi). pose proof (Rng j Hj).
    apply Inj in Eij; lia.
  - intros i Hi. pose proof (Rng i Hi). split; intros Eq.
    + change (J0 nonce) with (nonce ++ be_encode 4 1) in Eq. apply Inj in Eq; lia.
    + apply Zero in Eq; lia.
  - intros Eq. change (J0 nonce) with (nonce ++ be_encode 4 1) in Eq. apply Zero in Eq; lia.
Qed.
Print Assumptions C35_counter_blocks_distinct.
Example C35_ex : exists k c t, gcm_new Aes128 ex_key = Ok k /\ gcm_encrypt Aes128 Checked k ex_msg ex_nonce ex_data (repeat 7 16) = Ok (c, t).
Proof.
  destruct gcm_new_ok as [k Ek]. pose proof C30_ex as H. rewrite Ek, BaseFacts.bind_ok in H.
  exists k, ex_ct, ex_tag. split; [exact Ek|exact H].
Qed.
