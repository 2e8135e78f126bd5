(** Property theorems C97: with overflow checks on, no length of any input leads to a wrong answer: a call panics or returns what the standard says. *)
From Coq Require Import String.
From Verif Require Import Base Hex M_Util M_Sha2 M_Hmac M_Hkdf M_ChaCha20 M_Poly1305 M_Aes M_Gcm M_Ed25519
  S_Sha2 S_Hmac S_ChaCha S_PolyLazy S_Gcm S_Ed25519 Hist HistGen HistSound HistStream.
From Verif Require P_Checked P_CheckedEd P_Ed25519 P_Sha2Stream BaseFacts T_Hash T_HmacGen T_ChaCha T_Ccp T_Gcm T_PolyExact T_Ed25519 T_Mono P_Ccp P_Gcm P_ChaCha P_Util.

(** ** Hashing.  [never_wrong] (HistSound.v): whatever [write_digest] returns after any history of [update]s is the digest of the concatenation. *)
Theorem C97_sha2 : forall H V, sha2 H V -> never_wrong H Checked (SHA V).
Proof. exact P_Checked.sha2_never_wrong. Qed.
Print Assumptions C97_sha2.
Theorem C97_sha2_oneshot : forall H V, sha2 H V -> forall msg, bytes msg ->
  (2 ^ 61 <= len msg -> hash_wrapper H Checked msg = Panic) /\ (len msg < 2 ^ 61 -> hash_wrapper H Checked msg = Ok (SHA V msg)).
Proof.
  intros H V HV msg Hb. split; intros L; [|exact (T_Hash.C02_sha2_oneshot H V HV Checked msg Hb L)].
  unfold hash_wrapper. destruct (hupdate H Checked (hdefault H) msg) as [s|] eqn:Es; cbn [bind]; [|exact eq_refl].
  destruct (hwrite_digest H Checked s (repeat 0 (DIGEST_SIZE H))) as [d|] eqn:Ed; [exfalso|exact eq_refl].
  assert (Es' : hash_updates H Checked (hdefault H) [msg] = Ok s) by (cbn [hash_updates]; rewrite Es; exact eq_refl).
  pose proof (P_Checked.sha2_lim H V HV [msg] s _ d (Forall_cons _ Hb (Forall_nil _)) Es' (repeat_length _ _) Ed) as X.
  cbn [concat] in X. rewrite app_nil_r in X. clear -X L. lia.
Qed.
Print Assumptions C97_sha2_oneshot.

(** ** HMAC and HKDF over any hash that is never wrong (in a build), for all keys and inputs of any length. *)
Theorem C97_hmac : forall H b hash, never_wrong H b hash -> (DIGEST_SIZE H <= BLOCK_SIZE H)%nat -> forall key, bytes key ->
  (forall inputs t, Forall bytes inputs -> hmac_tag_of H b key inputs = Ok t -> t = HMAC hash (BLOCK_SIZE H) key (concat inputs)) /\
  (forall msg t, bytes msg -> hmac_wrapper H b key msg = Ok t -> t = HMAC hash (BLOCK_SIZE H) key msg) /\
  (forall msg tg v, bytes msg -> hmac_verify H b key msg tg = Ok v -> (v = true <-> tg = HMAC hash (BLOCK_SIZE H) key msg)).
Proof.
  intros H b hash C Hle key Hk. split; [|split].
  - intros inputs t. exact (P_Checked.tag_of_R H b hash C Hle key inputs t Hk).
  - intros msg t. exact (P_Checked.wrapper_R H b hash C Hle key msg t Hk).
  - intros msg tg v. exact (P_Checked.verify_R H b hash C Hle key msg tg v Hk).
Qed.
Print Assumptions C97_hmac.
Theorem C97_hkdf : forall H b hash, never_wrong H b hash -> (DIGEST_SIZE H <= BLOCK_SIZE H)%nat ->
  (forall salt ikm prk k, bytes salt -> bytes ikm -> extract H b salt ikm prk = Ok k -> k = HKDF_Extract hash (BLOCK_SIZE H) salt ikm) /\
  (forall prk info okm out, bytes prk -> bytes info -> expand H b prk info okm = Ok out ->
     out = HKDF_Expand hash (BLOCK_SIZE H) (DIGEST_SIZE H) prk info (length okm)).
Proof.
  intros H b hash C Hle. split.
  - intros salt ikm prk k. exact (P_Checked.extract_R H b hash C Hle salt ikm prk k).
  - intros prk info okm out. exact (P_Checked.expand_R H b hash C Hle prk info okm out).
Qed.
Print Assumptions C97_hkdf.
(** For SHA-2: a tag is refused exactly when the key or the padded key with the message is 2^61 bytes long or more. *)
Theorem C97_hmac_sha2_exactly : forall H V, sha2 H V -> forall key inputs, bytes key -> Forall bytes inputs ->
  (2 ^ 61 <= len key \/ 2 ^ 61 <= Z.of_nat (BLOCK_SIZE H) + len (concat inputs) -> hmac_tag_of H Checked key inputs = Panic) /\
  (len key < 2 ^ 61 -> Z.of_nat (BLOCK_SIZE H) + len (concat inputs) < 2 ^ 61 ->
     hmac_tag_of H Checked key inputs = Ok (HMAC_SHA2 V key (concat inputs))).
Proof.
  intros H V HV key inputs Hk Hb. split; [|intros L1 L2; exact (T_Hash.C06_hmac_rfc2104 H V HV Checked key inputs Hk L1 Hb L2)].
  intros L. destruct (hmac_tag_of H Checked key inputs) as [t|] eqn:E; [exfalso|exact eq_refl].
  assert (Hle : (DIGEST_SIZE H <= BLOCK_SIZE H)%nat /\ Z.of_nat (BLOCK_SIZE H) < 2 ^ 61).
  { destruct HV; (split; [apply Nat.leb_le; exact eq_refl|apply Z.ltb_lt; exact eq_refl]). }
  destruct Hle as [Hle HB].
  destruct (P_Checked.tag_of_lim H Checked (SHA V) (C97_sha2 H V HV) Hle (2 ^ 61) (P_Checked.sha2_lim H V HV) key inputs t Hk Hb E) as [X1 X2].
  destruct L as [L|L]; [|clear -L X2; lia].
  assert (X : (BLOCK_SIZE H < length key)%nat) by (unfold len in L; clear -L HB; lia). specialize (X1 X). clear -L X1. lia.
Qed.
Print Assumptions C97_hmac_sha2_exactly.

(** ** Ed25519 *)
Theorem C97_ed25519 : forall message, bytes message ->
  (forall sk, length sk = 32%nat -> bytes sk ->
     (2 ^ 61 - 64 <= len message -> ed_sign Checked message sk = Panic) /\
     (len message < 2 ^ 61 - 64 -> ed_sign Checked message sk = Ok (rfc_sign message sk))) /\
  (forall sig pk v, length pk = 32%nat -> bytes pk -> bytes sig -> ed_verify Checked message sig pk = Ok v ->
     (v = true <-> ref10_verifies message sig pk)).
Proof.
  intros m Hm. split.
  - intros sk Hl Hb. split; intros L; [|exact (T_Ed25519.C46_sign Checked m sk Hl Hb Hm L)].
    destruct (ed_sign Checked m sk) as [sig|] eqn:E; [exfalso|exact eq_refl].
    apply (P_CheckedEd.sign_lim m sk sig Hb Hl Hm) in E. clear -E L. lia.
  - intros sig pk v Hl Hb Hs E. exact (P_CheckedEd.verify_sound m sig pk v Hb Hl Hm Hs E).
Qed.
Print Assumptions C97_ed25519.

(** ** ChaCha20 streams and the AEADs *)
Theorem C97_stream : forall key nonce ops s0 outs s, chacha_key key -> chacha_nonce nonce -> Forall op_ok ops ->
  stream_new key nonce = Ok s0 -> run_ops Checked s0 ops = Ok (outs, s) ->
  ops_size ops <= 2 ^ 38 /\ outs = expect_ops (keystream_byte key nonce) 0 ops.
Proof.
  intros key nonce ops s0 outs s Hk Hn Ho E0 E.
  destruct (T_ChaCha.C16_stream_past_end key nonce ops Hk Hn Ho) as (s1 & E1 & Hp & _). rewrite E0 in E1. injection E1 as <-.
  destruct (Z.le_gt_cases (ops_size ops) (2 ^ 38)) as [L|L]; [|rewrite (Hp L) in E; discriminate].
  split; [exact L|].
  destruct (T_ChaCha.C14_stream_histories key nonce Checked ops Hk Hn Ho L) as (s2 & s3 & E2 & E3). rewrite E0 in E2. injection E2 as <-.
  rewrite E in E3. now injection E3 as <- <-.
Qed.
Print Assumptions C97_stream.
Theorem C97_ccp : forall key nonce data msg out, chacha_key key -> chacha_nonce nonce -> is_slice data -> is_slice msg ->
  (forall c t, ccp_encrypt Checked key msg nonce data out = Ok (c, t) ->
     c = aead_ciphertext key nonce msg /\ t = program_tag key nonce data c) /\
  (forall tag m v, ccp_decrypt Checked key msg nonce data tag out = Ok (m, v) ->
     (v = true <-> tag = program_tag key nonce data msg) /\ m = if v then aead_ciphertext key nonce msg else out).
Proof.
  intros key nonce data msg out Hk Hn Hd Hm.
  assert (EN : forall c t, ccp_encrypt Checked key msg nonce data out = Ok (c, t) ->
    len msg <= T_Ccp.checked_limit /\ c = aead_ciphertext key nonce msg /\ t = program_tag key nonce data c).
  { intros c t E. destruct (T_PolyExact.C21_tag_exactly Checked key nonce data msg out c t Hk Hn Hd Hm E) as (T & _).
    destruct (Nat.eq_dec (length out) (length msg)) as [Hl|Hl].
    2:{ exfalso. assert (X : ccp_encrypt Checked key msg nonce data out = Panic).
        { destruct Hk as [Lk Bk]. apply (P_Ccp.encrypt_bad_args Checked key msg nonce data out Lk). left. congruence. } rewrite X in E. discriminate. }
    destruct (Z.le_gt_cases (len msg) T_Ccp.checked_limit) as [L|L].
    2:{ rewrite (T_Ccp.C24_checked_limit_panics key nonce data msg out Hk Hn Hl L) in E. discriminate. }
    destruct (T_Ccp.C20_ciphertext_is_rfc8439 Checked key nonce data msg out Hk Hn Hd Hm Hl (or_introl L)) as (t' & E').
    rewrite E in E'. injection E' as -> _. split; [exact L|]. split; [exact eq_refl|exact T]. }
  split; [intros c t E; exact (proj2 (EN c t E))|]. clear EN. intros tag m v E.
  destruct (Nat.eq_dec (length msg) (length out)) as [Hl|Hl].
  2:{ rewrite (P_Ccp.decrypt_bad_args Checked key msg nonce data tag out (proj1 Hk) (or_introl Hl)) in E. discriminate. }
  destruct (T_PolyExact.program_tag_facts key nonce data msg Hk Hn Hd Hm) as (F & _).
  destruct Hk as [Lk Bk], Hn as [Ln Bn], Hd as [Bd Ld], Hm as [Bm Lm].
  revert E. unfold ccp_decrypt. rewrite (proj2 (Nat.eqb_eq _ _) (eq_sym Hl)). cbn [assertb bind].
  rewrite (P_Ccp.cipher_ok key nonce Lk Ln). cbn [bind]. rewrite (F Checked). cbn [bind].
  destruct (P_Util.verify_16_spec (program_tag key nonce data msg) tag) as (w & -> & Hw). cbn [bind].
  destruct w; intros E.
  - assert (L : len msg <= T_Ccp.checked_limit).
    { destruct (Z.le_gt_cases (len msg) T_Ccp.checked_limit) as [L|L]; [exact L|].
      rewrite (P_Ccp.process_panic key nonce Lk Ln Bk Bn msg out Hl L) in E. discriminate. }
    rewrite (P_Ccp.process_ok key nonce Lk Ln Bk Bn Checked msg out Hl (or_intror L)) in E. cbn [bind] in E. injection E as <- <-.
    split; [split; intros _; [symmetry; exact (proj1 Hw eq_refl)|exact eq_refl]|].
    apply (P_Ccp.crypt_rfc key nonce). unfold T_Ccp.checked_limit in L. clear -L. lia.
  - injection E as <- <-. split; [|exact eq_refl]. split; [discriminate|]. intros Q. exact (proj2 Hw (eq_sym Q)).
Qed.
Print Assumptions C97_ccp.
Theorem C97_gcm : forall E k, T_Gcm.block_cipher E k -> forall nonce data msg out, bytes nonce -> bytes data -> bytes msg ->
  (forall c t, gcm_encrypt E Checked k msg nonce data out = Ok (c, t) ->
     c = gcm_ciphertext (bc_permute E k) nonce msg /\ t = gcm_auth_tag (bc_permute E k) nonce data c) /\
  (forall tag m v, gcm_decrypt E Checked k msg nonce data tag out = Ok (m, v) ->
     (v = true <-> tag = gcm_auth_tag (bc_permute E k) nonce data msg) /\ m = if v then gcm_ciphertext (bc_permute E k) nonce msg else out).
Proof.
  intros E k HE nonce data msg out Bn Bd Bm.
  destruct T_Mono.C85_ciphers as (_ & _ & _ & _ & ME & MD).
  assert (AR : forall tag, (exists r, gcm_encrypt E Checked k msg nonce data out = Ok r) \/
    (exists r, gcm_decrypt E Checked k msg nonce data tag out = Ok r) ->
    length out = length msg /\ length nonce = 12%nat /\ len msg < 2 ^ 36 - 32 /\ len data < 2 ^ 61).
  { intros tag H.
    destruct (Nat.eq_dec (length msg) (length out)) as [H1|H1];
      [destruct (Nat.eq_dec (length nonce) 12) as [H2|H2];
        [destruct (Z.lt_ge_cases (len msg) (2 ^ 36 - 32)) as [H3|H3]; [destruct (Z.lt_ge_cases (len data) (2 ^ 61)) as [H4|H4]; [auto|]|]|]|].
    all: exfalso; assert (Bad : length msg <> length out \/ length nonce <> 12%nat \/ 2 ^ 36 - 32 <= len msg \/ 2 ^ 61 <= len data) by auto;
      destruct (P_Gcm.gcm_bad_args E Checked k msg nonce data tag out Bad) as [Q1 Q2]; destruct H as [ [r H]|[r H] ];
      [rewrite Q1 in H|rewrite Q2 in H]; discriminate H. }
  split.
  - intros c t En. destruct (AR [] (or_introl (ex_intro _ _ En))) as (Hl & Hn & Lm & Ld).
    destruct (ME E k msg nonce data out) as [Q|Q]; [rewrite Q in En; discriminate En|]. rewrite Q in En.
    pose proof (T_Gcm.C30_gcm_is_sp800_38d E k HE Unchecked nonce data msg out (conj Hn Bn) (conj Bd Ld) (conj Bm Lm) Hl (or_introl eq_refl)) as X.
    cbv zeta in X. rewrite X in En. injection En as <- <-. split; exact eq_refl.
  - intros tag m v En. destruct (AR tag (or_intror (ex_intro _ _ En))) as (Hl & Hn & Lm & Ld).
    destruct (MD E k msg nonce data tag out) as [Q|Q]; [rewrite Q in En; discriminate En|]. rewrite Q in En.
    destruct (T_Gcm.C32_decrypt_accepts_exactly E k HE nonce data msg (conj Hn Bn) (conj Bd Ld) (conj Bm Lm)) as (_ & DT & DF & _).
    destruct (list_eq_dec Z.eq_dec tag (gcm_auth_tag (bc_permute E k) nonce data msg)) as [Et|Nt].
    + rewrite Et, (DT Unchecked out Hl (or_introl eq_refl)) in En. injection En as <- <-.
      split; [split; intros _; [exact Et|exact eq_refl]|exact eq_refl].
    + rewrite (DF Unchecked out tag Hl Nt) in En. injection En as <- <-. split; [|exact eq_refl]. split; [discriminate|]. intros Et. exact (False_ind _ (Nt Et)).
Qed.
Print Assumptions C97_gcm.

(** The claims are not empty beyond the limits: such inputs exist, and without overflow checks they do get wrong answers (C05, C16, C23).  Here
    for HMAC: a key that is too long, and short inputs for which a tag is returned. *)
Example C97_ex : (exists key, bytes key /\ 2 ^ 61 <= len key /\ hmac_tag_of Sha256 Checked key [[1]] = Panic) /\
  (exists t, hmac_tag_of Sha256 Checked [1; 2] [[1]; [2]] = Ok t) /\
  (exists m, bytes m /\ 2 ^ 61 - 64 <= len m /\ ed_sign Checked m (repeat 7 32) = Panic).
Proof.
  assert (HR : forall n, 0 <= n -> bytes (repeat 0 (Z.to_nat n)) /\ n <= len (repeat 0 (Z.to_nat n))).
  { intros n Hn. split; [apply BaseFacts.bytes_repeat; unfold byte_ok; lia|]. unfold len. rewrite repeat_length, Z2Nat.id by exact Hn. apply Z.le_refl. }
  split; [|split].
  - destruct (HR (2 ^ 61)) as [B L]; [apply Z.leb_le; exact eq_refl|]. exists (repeat 0 (Z.to_nat (2 ^ 61))). split; [exact B|]. split; [exact L|].
    apply (proj1 (C97_hmac_sha2_exactly Sha256 spec_sha256 is_sha256 _ [[1] ] B (Forall_cons _ (proj1 (BaseFacts.bytesb_spec [1]) eq_refl) (Forall_nil _)))).
    left. exact L.
  - eexists. apply (proj2 (C97_hmac_sha2_exactly Sha256 spec_sha256 is_sha256 [1; 2] [[1]; [2] ] (proj1 (BaseFacts.bytesb_spec [1; 2]) eq_refl)
      (Forall_cons _ (proj1 (BaseFacts.bytesb_spec [1]) eq_refl) (Forall_cons _ (proj1 (BaseFacts.bytesb_spec [2]) eq_refl) (Forall_nil _))))); apply Z.ltb_lt; exact eq_refl.
  - destruct (HR (2 ^ 61 - 64)) as [B L]; [apply Z.leb_le; exact eq_refl|]. exists (repeat 0 (Z.to_nat (2 ^ 61 - 64))). split; [exact B|]. split; [exact L|].
    apply (proj1 (proj1 (C97_ed25519 _ B) (repeat 7 32) eq_refl ltac:(apply BaseFacts.bytesb_spec; exact eq_refl))). exact L.
Qed.
