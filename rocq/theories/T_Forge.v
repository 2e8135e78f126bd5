(** Property theorems C60-C61: an unconditional bound on forgeries, for the two AEADs; C65: reuse of a nonce. *)
From Coq Require Import String.
From Verif Require Import Base Hex M_Aes M_Ghash M_Gcm M_Poly1305 S_Gf2 S_Gcm S_Aes S_ChaCha T_Gcm.
From Verif Require P_Aes P_Ghash P_Gcm P_Forge P_Forge2 P_Ccp P_Poly1305 P_Nonce BaseFacts.

(** ** C60 *)
(** The number of blocks GHASH reads for [data] and [ct]: both padded to 16 bytes, and one block of lengths. *)
Definition hash_blocks (data ct : list Z) : Z := (len data + 15) / 16 + (len ct + 15) / 16 + 1.

Lemma gcm_accept_inv E k : block_cipher E k -> forall b nonce data ct tag out r,
  bytes nonce -> gcm_data data -> gcm_message ct -> gcm_decrypt E b k ct nonce data tag out = Ok (r, true) ->
  gcm_nonce nonce /\ tag = gcm_auth_tag (bc_permute E k) nonce data ct.
Proof.
  intros HE b nonce data ct tag out r Bn [Bd Ld] [Bc Lc] Ed.
  assert (Hargs : ~ (length ct <> length out \/ length nonce <> 12%nat \/ 2 ^ 36 - 32 <= len ct \/ 2 ^ 61 <= len data)).
  { intros H. rewrite (proj2 (P_Gcm.gcm_bad_args E b k ct nonce data tag out H)) in Ed. discriminate. }
  assert (Hn : length nonce = 12%nat) by lia. split; [split; assumption|].
  destruct (list_eq_dec Z.eq_dec tag (gcm_auth_tag (bc_permute E k) nonce data ct)) as [Et|Nt]; [exact Et|exfalso].
  rewrite (P_Gcm.gcm_decrypt_false E k HE nonce Hn) in Ed by (try assumption; lia). discriminate.
Qed.

(** Fix two different (data, ciphertext) pairs and two tags.  There is one set of at most max(blocks, blocks') 16-byte strings such
    that, for EVERY block cipher, key and nonce, if both triples are accepted then the encryption of the zero block lies in it. *)
Theorem C60_gcm_forgery_bound : forall data ct tag data' ct' tag',
  gcm_data data -> gcm_message ct -> gcm_data data' -> gcm_message ct' -> (data, ct) <> (data', ct') ->
  exists bad : list (list Z),
    Z.of_nat (length bad) <= Z.max (hash_blocks data ct) (hash_blocks data' ct') /\
    forall E k, block_cipher E k -> forall b b' nonce out out' r r', bytes nonce ->
      gcm_decrypt E b k ct nonce data tag out = Ok (r, true) ->
      gcm_decrypt E b' k ct' nonce data' tag' out' = Ok (r', true) ->
      In (bc_permute E k (repeat 0 16)) bad.
Proof.
  intros data ct tag data' ct' tag' Hd Hc Hd' Hc' Ne.
  destruct (P_Forge.forge data ct data' ct' (Z.lxor (block_poly tag) (block_poly tag'))) as (bad & Lb & Hb);
    try (apply Hd || apply Hc || apply Hd' || apply Hc' || exact Ne); try (destruct Hc as [_ Hc], Hc' as [_ Hc']; lia).
  exists bad. split.
  - unfold hash_blocks. rewrite <- !P_Forge.nblocks_eq. lia.
  - intros E k HE b b' nonce out out' r r' Bn E1 E2.
    destruct (gcm_accept_inv E k HE b nonce data ct tag out r Bn Hd Hc E1) as [Hn T1].
    destruct (gcm_accept_inv E k HE b' nonce data' ct' tag' out' r' Bn Hd' Hc' E2) as [_ T2].
    assert (B0 : is_block (bc_permute E k (repeat 0 16))).
    { apply HE. split; [reflexivity|]. apply BaseFacts.bytes_repeat. unfold byte_ok; lia. }
    assert (BJ : is_block (bc_permute E k (J0 nonce))).
    { apply HE. destruct Hn as [Hn _]. split; [unfold J0; rewrite app_length, Hn; reflexivity|].
      apply BaseFacts.bytes_app. split; [exact Bn|]. apply BaseFacts.bytesb_spec. reflexivity. }
    apply Hb; [apply B0|apply B0|]. subst tag tag'. rewrite !P_Forge.tag_mask.
    rewrite !P_Forge.block_poly_xorl by (apply P_Ghash.poly_block_ok || apply BJ).
    unfold GHASH. fold (P_Forge.gh (bc_permute E k (repeat 0 16)) (ghash_input data ct)).
    fold (P_Forge.gh (bc_permute E k (repeat 0 16)) (ghash_input data' ct')).
    rewrite !P_Forge.block_poly_block by apply P_Forge.gh_range.
    rewrite P_Gf2.lxor_swap, Z.lxor_nilpotent, Z.lxor_0_r. reflexivity.
Qed.
Print Assumptions C60_gcm_forgery_bound.

(** The usual reading: after [encrypt] has returned (c, t), presenting any other (data', c', t') under the same nonce can succeed only
    for hash keys in a set of that size, fixed by c, t and the forgery attempt. *)
Theorem C60_gcm_forgery_after_encrypt : forall data ct tag data' ct' tag',
  gcm_data data -> gcm_message ct -> gcm_data data' -> gcm_message ct' -> (data', ct') <> (data, ct) ->
  exists bad : list (list Z),
    Z.of_nat (length bad) <= Z.max (hash_blocks data ct) (hash_blocks data' ct') /\
    forall E k, block_cipher E k -> forall b b' nonce msg out out' r', bytes nonce -> bytes msg ->
      gcm_encrypt E b k msg nonce data out = Ok (ct, tag) ->
      gcm_decrypt E b' k ct' nonce data' tag' out' = Ok (r', true) ->
      In (bc_permute E k (repeat 0 16)) bad.
Proof.
  intros data ct tag data' ct' tag' Hd Hc Hd' Hc' Ne.
  destruct (C60_gcm_forgery_bound data ct tag data' ct' tag' Hd Hc Hd' Hc') as (bad & Lb & Hb); [intros E; apply Ne; symmetry; exact E|].
  exists bad. split; [exact Lb|]. intros E k HE b b' nonce msg out out' r' Bn Bm E1 E2.
  apply (Hb E k HE b b' nonce msg out' msg r' Bn); [|exact E2].
  apply (C31_roundtrip E k HE b b nonce data msg out msg ct tag Bn (proj1 Hd) Bm E1); [now left|reflexivity].
Qed.
Print Assumptions C60_gcm_forgery_after_encrypt.
(** The hypotheses are met: two different triples accepted under one key and nonce. *)
Example C60_ex : exists k t t', gcm_new Aes128 ex_key = Ok k /\ block_cipher Aes128 k /\
  gcm_decrypt Aes128 Checked k [5] ex_nonce [1] t [0] = Ok (gcm_ciphertext (bc_permute Aes128 k) ex_nonce [5], true) /\
  gcm_decrypt Aes128 Checked k [6] ex_nonce [] t' [0] = Ok (gcm_ciphertext (bc_permute Aes128 k) ex_nonce [6], true).
Proof.
  destruct gcm_new_ok as [k Ek]. pose proof (aes128_cipher k Ek) as HE.
  exists k, (gcm_auth_tag (bc_permute Aes128 k) ex_nonce [1] [5]), (gcm_auth_tag (bc_permute Aes128 k) ex_nonce [] [6]).
  split; [exact Ek|]. split; [exact HE|].
  assert (Hn : gcm_nonce ex_nonce) by ok_bytes.
  split; apply (C32_decrypt_accepts_exactly Aes128 k HE); try exact Hn; try reflexivity; try (right; reflexivity || discriminate).
  all: split; [apply BaseFacts.bytesb_spec; reflexivity|reflexivity].
Qed.

(** ** C61 *)
(** The secret point at which Poly1305 evaluates. *)
Definition poly_r (key nonce : list Z) : Z := clamp (le_decode (firstn 16 (one_time_key key nonce))).

Lemma ccp_accept_inv : forall b key nonce data ct tag out r,
  chacha_key key -> bytes nonce -> is_slice data -> is_slice ct -> ccp_decrypt b key ct nonce data tag out = Ok (r, true) ->
  let v := P_Forge2.acc (poly_r key nonce) (P_Forge2.macb data ct) in
  rfc8439_acc key nonce data ct = v /\ exists w, (w = v \/ w = faulty_acc v /\ 0 <= v < 2 ^ 22 + 5) /\
    tag = le_encode 16 (w + le_decode (skipn 16 (one_time_key key nonce))).
Proof.
  intros b key nonce data ct tag out r [Hk Bk] Bn [Bd Ld] [Bc Lc] E v.
  destruct (Nat.eq_dec (length ct) (length out)) as [Hl|Hl].
  2:{ rewrite P_Ccp.decrypt_bad_args in E by auto. discriminate. }
  destruct (Nat.eq_dec (length nonce) 12) as [Hn|Hn].
  2:{ rewrite P_Ccp.decrypt_bad_args in E by auto. discriminate. }
  assert (Ev : rfc8439_acc key nonce data ct = v).
  { unfold rfc8439_acc, poly1305_acc. rewrite P_Forge2.mac_chunks. unfold v, poly_r, P_Forge2.acc, P_Forge2.coef. exact eq_refl. }
  split; [exact Ev|].
  destruct (P_Ccp.decrypt_ok key nonce Hk Hn Bk Bn ct data Bc Bd Ld Lc) as (t & _ & _ & Ee & _ & Ef).
  destruct (list_eq_dec Z.eq_dec tag t) as [->|Nt].
  2:{ rewrite (Ef b out tag) in E by (try assumption; congruence). discriminate. }
  assert (Bm : bytes (P_Ccp.crypt key nonce ct)) by now apply P_Ccp.crypt_bytes.
  assert (Lm : len (P_Ccp.crypt key nonce ct) < 2 ^ 64) by (unfold len in *; now rewrite P_Ccp.crypt_length).
  destruct (P_Ccp.encrypt_ok key nonce Hk Hn Bk Bn (P_Ccp.crypt key nonce ct) data Bm Bd Ld Lm) as (t1 & _ & _ & [V D] & _ & E1).
  rewrite P_Ccp.crypt_crypt in V, D, E1 by assumption.
  specialize (Ee Unchecked out (eq_sym Hl) (or_introl eq_refl)).
  rewrite (E1 Unchecked out) in Ee by (rewrite ?P_Ccp.crypt_length by assumption; auto; congruence). injection Ee as ->.
  destruct (Z_lt_dec v (2 ^ 22 + 5)) as [Hs|Hs].
  - destruct D as [D|D].
    + exists v. split; [now left|]. rewrite <- Ev. exact D.
    + exists (faulty_acc v). split; [right; split; [reflexivity|split; [apply P_Forge2.acc_range|exact Hs] ]|]. rewrite <- Ev. exact D.
  - exists v. split; [now left|]. rewrite <- Ev. apply V. rewrite Ev. lia.
Qed.

(** Fix two different (data, ciphertext) pairs and two tags: for every key and nonce under which both are accepted, the Poly1305 point r
    lies in one set of at most 8712 * max(blocks, blocks') numbers. *)
Theorem C61_ccp_forgery_bound : forall data ct tag data' ct' tag',
  is_slice data -> is_slice ct -> is_slice data' -> is_slice ct' -> (data, ct) <> (data', ct') ->
  exists bad : list Z,
    Z.of_nat (length bad) <= 8712 * Z.max (hash_blocks data ct) (hash_blocks data' ct') /\
    forall key nonce, chacha_key key -> bytes nonce -> forall b b' out out' r r',
      ccp_decrypt b key ct nonce data tag out = Ok (r, true) ->
      ccp_decrypt b' key ct' nonce data' tag' out' = Ok (r', true) ->
      In (poly_r key nonce) bad.
Proof.
  intros data ct tag data' ct' tag' Hd Hc Hd' Hc' Ne.
  set (d := le_decode tag - le_decode tag').
  destruct (P_Forge2.forge_mod data ct data' ct' (proj1 Hd) (proj1 Hc) (proj1 Hd') (proj1 Hc') (proj2 Hd) (proj2 Hc) (proj2 Hd') (proj2 Hc') Ne
    (P_Forge2.pair_diffs d)) as (bad & Lb & Hb).
  exists bad. split.
  - unfold hash_blocks. rewrite <- !P_Forge2.macb_length. rewrite P_Forge2.pair_diffs_length in Lb. lia.
  - intros key nonce Hk Bn b b' out out' r r' E1 E2.
    destruct (ccp_accept_inv b key nonce data ct tag out r Hk Bn Hd Hc E1) as (_ & w & Hw & T1).
    destruct (ccp_accept_inv b' key nonce data' ct' tag' out' r' Hk Bn Hd' Hc' E2) as (_ & w' & Hw' & T2).
    apply Hb; [apply P_Forge2.clamp_range|].
    apply (P_Forge2.tag_diff _ _ w w' (le_decode (skipn 16 (one_time_key key nonce))) d Hw Hw'). unfold d. rewrite T1, T2. exact eq_refl.
Qed.
Print Assumptions C61_ccp_forgery_bound.
(** With both accumulators at least 2^22+5 (where the tags are those of RFC 8439) the set has the size of Bernstein's theorem. *)
Theorem C61_ccp_forgery_bound_rfc : forall data ct tag data' ct' tag',
  is_slice data -> is_slice ct -> is_slice data' -> is_slice ct' -> (data, ct) <> (data', ct') ->
  exists bad : list Z,
    Z.of_nat (length bad) <= 8 * Z.max (hash_blocks data ct) (hash_blocks data' ct') /\
    forall key nonce, chacha_key key -> bytes nonce -> forall b b' out out' r r',
      2 ^ 22 + 5 <= rfc8439_acc key nonce data ct -> 2 ^ 22 + 5 <= rfc8439_acc key nonce data' ct' ->
      ccp_decrypt b key ct nonce data tag out = Ok (r, true) ->
      ccp_decrypt b' key ct' nonce data' tag' out' = Ok (r', true) ->
      In (poly_r key nonce) bad.
Proof.
  intros data ct tag data' ct' tag' Hd Hc Hd' Hc' Ne.
  set (d := le_decode tag - le_decode tag').
  destruct (P_Forge2.forge_mod data ct data' ct' (proj1 Hd) (proj1 Hc) (proj1 Hd') (proj1 Hc') (proj2 Hd) (proj2 Hc) (proj2 Hd') (proj2 Hc') Ne
    [d]) as (bad & Lb & Hb).
  exists bad. split.
  - unfold hash_blocks. rewrite <- !P_Forge2.macb_length. cbn [length] in Lb. lia.
  - intros key nonce Hk Bn b b' out out' r r' A1 A2 E1 E2.
    destruct (ccp_accept_inv b key nonce data ct tag out r Hk Bn Hd Hc E1) as (V1 & w & Hw & T1).
    destruct (ccp_accept_inv b' key nonce data' ct' tag' out' r' Hk Bn Hd' Hc' E2) as (V2 & w' & Hw' & T2).
    apply Hb; [apply P_Forge2.clamp_range|]. exists d. split; [now left|].
    rewrite V1 in A1. rewrite V2 in A2. destruct Hw as [-> | [_ Hw] ]; [|lia]. destruct Hw' as [-> | [_ Hw'] ]; [|lia].
    set (v := P_Forge2.acc _ _) in T1. set (v' := P_Forge2.acc _ _) in T2. fold v v'.
    set (s := le_decode (skipn 16 (one_time_key key nonce))) in *. clearbody v v' s. clear - T1 T2. unfold d. rewrite T1, T2.
    rewrite !BaseFacts.le_decode_encode. change (256 ^ Z.of_nat 16) with (2 ^ 128).
    rewrite <- Zminus_mod. f_equal. lia.
Qed.
Print Assumptions C61_ccp_forgery_bound_rfc.
Example C61_ex : exists key nonce t t', chacha_key key /\ bytes nonce /\
  (exists r, ccp_decrypt Checked key [5] nonce [1] t [0] = Ok (r, true)) /\
  (exists r', ccp_decrypt Checked key [6] nonce [] t' [0] = Ok (r', true)).
Proof.
  exists (repeat 1 32), (repeat 2 12).
  assert (Hk : chacha_key (repeat 1 32)) by (split; [reflexivity|apply BaseFacts.bytesb_spec; reflexivity]).
  assert (Bn : bytes (repeat 2 12)) by (apply BaseFacts.bytesb_spec; reflexivity).
  destruct Hk as [Hk Bk].
  destruct (P_Ccp.decrypt_ok (repeat 1 32) (repeat 2 12) Hk eq_refl Bk Bn [5] [1]) as (t & _ & _ & _ & E & _);
    try reflexivity; try (apply BaseFacts.bytesb_spec; reflexivity).
  destruct (P_Ccp.decrypt_ok (repeat 1 32) (repeat 2 12) Hk eq_refl Bk Bn [6] []) as (t' & _ & _ & _ & E' & _);
    try reflexivity; try (apply BaseFacts.bytesb_spec; reflexivity).
  exists t, t'. split; [split; assumption|]. split; [exact Bn|].
  split; eexists; [apply E|apply E']; try reflexivity; right; unfold P_Ccp.LIM; cbn; lia.
Qed.

(** ** C65 *)
(** Under one key and nonce the XOR of two ciphertexts is the XOR of the messages (of their common prefix), whatever the associated data;
    in particular different messages have different ciphertexts. *)
Theorem C65_gcm_nonce_reuse : forall E k, block_cipher E k -> forall b b' nonce data data' msg msg' out out' c t c' t',
  bytes nonce -> bytes data -> bytes data' -> bytes msg -> bytes msg' ->
  gcm_encrypt E b k msg nonce data out = Ok (c, t) -> gcm_encrypt E b' k msg' nonce data' out' = Ok (c', t') ->
  xorl c c' = xorl msg msg' /\ length c = length msg /\ (c = c' -> msg = msg').
Proof.
  intros E k HE b b' nonce data data' msg msg' out out' c t c' t' Bn Bd Bd' Bm Bm' E1 E2.
  assert (G : forall b data msg out c t, bytes data -> bytes msg -> gcm_encrypt E b k msg nonce data out = Ok (c, t) ->
    length nonce = 12%nat /\ c = P_Gcm.gcrypt E k nonce msg).
  { clear - HE Bn. intros b data msg out c t Bd Bm Ee.
    assert (Hargs : ~ (length msg <> length out \/ length nonce <> 12%nat \/ 2 ^ 36 - 32 <= len msg \/ 2 ^ 61 <= len data)).
    { intros H. rewrite (proj1 (P_Gcm.gcm_bad_args E b k msg nonce data [] out H)) in Ee. discriminate. }
    assert (Hn : length nonce = 12%nat) by lia. split; [exact Hn|].
    assert (Hlim : b = Unchecked \/ len msg <= P_Gcm.GLIM).
    { destruct b; [right|now left]. destruct (Z.le_gt_cases (len msg) P_Gcm.GLIM) as [|Hgt]; [assumption|].
      rewrite (P_Gcm.gcm_encrypt_panic E k HE nonce Hn) in Ee by (try exact Hgt; try assumption; lia). discriminate. }
    rewrite (P_Gcm.gcm_encrypt_ok E k HE nonce Hn) in Ee by (try assumption; lia). injection Ee as <- _.
    symmetry. now apply P_Gcm.gcrypt_spec. }
  destruct (G _ _ _ _ _ _ Bd Bm E1) as [Hn ->]. destruct (G _ _ _ _ _ _ Bd' Bm' E2) as [_ ->].
  split; [|split; [now apply P_Gcm.gcrypt_length|] ].
  - unfold P_Gcm.gcrypt. apply (P_Nonce.ctr_pair _ 16); [intros N; now apply P_Gcm.gstream_length|apply (P_Gcm.gN_16 E k)|apply (P_Gcm.gN_16 E k)].
  - intros Ec. rewrite <- (P_Gcm.gcrypt_gcrypt E k HE nonce Hn Bn msg), Ec. now apply P_Gcm.gcrypt_gcrypt.
Qed.
Print Assumptions C65_gcm_nonce_reuse.
Theorem C65_ccp_nonce_reuse : forall b b' key nonce data data' msg msg' out out' c t c' t',
  chacha_key key -> bytes nonce -> is_slice data -> is_slice data' -> is_slice msg -> is_slice msg' ->
  ccp_encrypt b key msg nonce data out = Ok (c, t) -> ccp_encrypt b' key msg' nonce data' out' = Ok (c', t') ->
  xorl c c' = xorl msg msg' /\ length c = length msg /\ (c = c' -> msg = msg').
Proof.
  intros b b' key nonce data data' msg msg' out out' c t c' t' [Hk Bk] Bn Bd Bd' Bm Bm' E1 E2.
  assert (G : forall b data msg out c t, is_slice data -> is_slice msg -> ccp_encrypt b key msg nonce data out = Ok (c, t) ->
    c = P_Ccp.crypt key nonce msg).
  { clear - Hk Bk Bn. intros b data msg out c t [Bd Ld] [Bm Lm] E.
    destruct (Nat.eq_dec (length msg) (length out)) as [Hl|Hl].
    2:{ rewrite P_Ccp.encrypt_bad_args in E by auto. discriminate. }
    destruct (Nat.eq_dec (length nonce) 12) as [Hn|Hn].
    2:{ rewrite P_Ccp.encrypt_bad_args in E by auto. discriminate. }
    destruct (P_Ccp.encrypt_ok key nonce Hk Hn Bk Bn msg data Bm Bd Ld Lm) as (t1 & _ & _ & _ & _ & E1).
    assert (Hlim : b = Unchecked \/ len msg <= P_Ccp.LIM).
    { destruct b; [right|now left]. destruct (Z.le_gt_cases (len msg) P_Ccp.LIM) as [|Hgt]; [assumption|].
      rewrite P_Ccp.encrypt_panic in E by (try assumption; congruence). discriminate. }
    rewrite E1 in E by (try assumption; congruence). now injection E as <- _. }
  rewrite (G _ _ _ _ _ _ Bd Bm E1), (G _ _ _ _ _ _ Bd' Bm' E2). split; [apply P_Nonce.crypt_pair|]. split; [apply P_Ccp.crypt_length|].
  intros Ec. rewrite <- (P_Ccp.crypt_crypt key nonce msg), Ec. apply P_Ccp.crypt_crypt.
Qed.
Print Assumptions C65_ccp_nonce_reuse.
Example C65_ex : xorl [1; 2; 3] [3; 3] = [2; 1] /\ exists k r r', gcm_new Aes128 ex_key = Ok k /\ block_cipher Aes128 k /\
  gcm_encrypt Aes128 Checked k [1; 2; 3] ex_nonce [] [0; 0; 0] = Ok r /\ gcm_encrypt Aes128 Checked k [3; 3] ex_nonce [7] [0; 0] = Ok r'.
Proof.
  split; [reflexivity|]. destruct gcm_new_ok as [k Ek]. pose proof (aes128_cipher k Ek) as HE. exists k.
  do 2 eexists. split; [exact Ek|]. split; [exact HE|].
  split; apply (C30_gcm_is_sp800_38d Aes128 k HE); try (right; apply Z.leb_le; reflexivity); try reflexivity; try ok_bytes.
  all: split; [apply BaseFacts.bytesb_spec; reflexivity|apply Z.ltb_lt; reflexivity].
Qed.
