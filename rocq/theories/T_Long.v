(** C98: the functions built on SHA-2, in a build without overflow checks, for inputs of every length. *)
From Coq Require Import String.
From Verif Require Import Base Hex M_Sha2 M_Hmac M_Hkdf Hist S_Hmac M_Curve25519 M_Ed25519 S_Sha2 S_Field S_Edwards S_X25519 S_Ed25519 S_Long.
From Verif Require BaseFacts HistGen P_Sha2Stream T_HmacGen P_Ed25519 P_Long.

(** SHA-2, however the input is split. *)
Theorem C98_sha2 : forall H V, sha2 H V -> forall inputs, Forall bytes inputs ->
  exists s, hash_updates H Unchecked (hdefault H) inputs = Ok s /\
    forall out, length out = DIGEST_SIZE H -> hwrite_digest H Unchecked s out = Ok (SHAw V (concat inputs)).
Proof.
  intros H V HV inputs Bi. destruct (P_Sha2Stream.sha2_contract H V HV) as (R & C).
  destruct (P_Sha2Stream.hc_updates H V R C Unchecked inputs (hdefault H) [] (P_Sha2Stream.hc_default H V R C) Bi) as (s & E & Rs); [auto|].
  exists s. split; [exact E|]. intros out Ho. cbn [app] in Rs.
  rewrite (P_Sha2Stream.hc_write H V R C Unchecked s _ out Rs) by auto.
  rewrite Ho, (P_Sha2Stream.hc_ds H V R C), Nat.eqb_refl. reflexivity.
Qed.
Lemma implements_w H V : sha2 H V -> forall lim, HistGen.implements H Unchecked lim (SHAw V).
Proof.
  intros HV lim. split; [intros inputs Bi _; exact (C98_sha2 H V HV inputs Bi)|].
  intros m Bm. destruct (P_Sha2Stream.sha2_contract H V HV) as (R & C). rewrite (P_Sha2Stream.hc_ds H V R C).
  split; [apply (P_Sha2Stream.hc_length H V R C); exact Bm|apply P_Sha2Stream.SHA_bytes].
Qed.
Lemma sizes H V : sha2 H V -> (0 < DIGEST_SIZE H <= 64)%nat /\ (DIGEST_SIZE H <= BLOCK_SIZE H)%nat /\ BLOCK_SIZE H = block_bytes V /\
  DIGEST_SIZE H = digest_bytes V.
Proof. intros [| | |]; cbn; lia. Qed.

(** HMAC, its verification and HKDF: RFC 2104 and RFC 5869 with that hash, whatever the lengths of keys, salts, messages and infos. *)
Theorem C98_hmac : forall H V, sha2 H V -> forall key inputs, bytes key -> Forall bytes inputs ->
  hmac_tag_of H Unchecked key inputs = Ok (HMAC (SHAw V) (block_bytes V) key (concat inputs)) /\
  (forall tag, hmac_verify H Unchecked key (concat inputs) tag = Ok true <-> tag = HMAC (SHAw V) (block_bytes V) key (concat inputs)) /\
  (forall tag, hmac_verify H Unchecked key (concat inputs) tag = Ok false <-> tag <> HMAC (SHAw V) (block_bytes V) key (concat inputs)).
Proof.
  intros H V HV key inputs Bk Bi. destruct (sizes H V HV) as ([D0 D] & DB & <- & _).
  pose proof (BaseFacts.len_nonneg key) as Nk. pose proof (BaseFacts.len_nonneg (concat inputs)) as Ni.
  set (lim := len key + (Z.of_nat (BLOCK_SIZE H) + Z.of_nat (DIGEST_SIZE H) + len (concat inputs)) + 1).
  assert (L1 : len key < lim) by (unfold lim; lia).
  assert (L2 : Z.of_nat (BLOCK_SIZE H) + Z.of_nat (DIGEST_SIZE H) + len (concat inputs) < lim) by (unfold lim; lia).
  assert (Bc : bytes (concat inputs)) by now apply BaseFacts.bytes_concat.
  split; [exact (T_HmacGen.C86_hmac H Unchecked lim (SHAw V) (implements_w H V HV lim) D DB key inputs Bk L1 Bi L2)|].
  split; intros tag;
    destruct (T_HmacGen.C86_verify H Unchecked lim (SHAw V) (implements_w H V HV lim) D DB key (concat inputs) tag Bk L1 Bc L2)
      as [(E & T)|(E & T)]; rewrite E; split; intros K; try discriminate; try assumption; try reflexivity; contradiction.
Qed.
Theorem C98_hkdf : forall H V, sha2 H V ->
  (forall salt ikm prk, bytes salt -> bytes ikm ->
     extract H Unchecked salt ikm prk =
       if (length prk =? digest_bytes V)%nat then Ok (HKDF_Extract (SHAw V) (block_bytes V) salt ikm) else Panic) /\
  (forall prk info okm, bytes prk -> bytes info ->
     expand H Unchecked prk info okm =
       if (digest_bytes V <=? length prk)%nat && (length okm <=? 255 * digest_bytes V)%nat
       then Ok (HKDF_Expand (SHAw V) (block_bytes V) (digest_bytes V) prk info (length okm)) else Panic).
Proof.
  intros H V HV. destruct (sizes H V HV) as (D & DB & <- & <-). split.
  - intros salt ikm prk Bs Bi. pose proof (BaseFacts.len_nonneg salt) as Nk. pose proof (BaseFacts.len_nonneg ikm) as Ni.
    set (lim := len salt + (Z.of_nat (BLOCK_SIZE H) + Z.of_nat (DIGEST_SIZE H) + len ikm) + 1).
    apply (T_HmacGen.C86_extract H Unchecked lim (SHAw V) (implements_w H V HV lim) (proj2 D) DB); auto; unfold lim; lia.
  - intros prk info okm Bp Bi. pose proof (BaseFacts.len_nonneg prk) as Nk. pose proof (BaseFacts.len_nonneg info) as Ni.
    set (lim := len prk + (Z.of_nat (BLOCK_SIZE H) + Z.of_nat (DIGEST_SIZE H) + len info) + 2).
    rewrite (T_HmacGen.C86_expand H Unchecked lim (SHAw V) (implements_w H V HV lim) D DB); auto; [|unfold lim; lia|unfold lim; lia].
    now rewrite Bool.andb_true_r.
Qed.

(** Ed25519.  Signing returns the signature of RFC 8032 made with the hash [H512w] in place of SHA-512: no length panics. *)
Theorem C98_sign : forall message secret_key,
  length secret_key = 32%nat -> bytes secret_key -> bytes message ->
  ed_sign Unchecked message secret_key = Ok (long_sign message secret_key).
Proof. intros m sk Hl Hb Hm. exact (P_Long.ed_sign_long m sk Hb Hl Hm). Qed.

(** Verification checks ref10's equation with that hash. *)
Theorem C98_verify : forall message sig pk,
  length pk = 32%nat -> bytes pk -> bytes sig -> bytes message ->
  (ed_verify Unchecked message sig pk = Ok true <-> long_verifies message sig pk) /\
  (ed_verify Unchecked message sig pk = Ok false <-> ~ long_verifies message sig pk).
Proof.
  intros m s pk Hl Hb Hs Hm. destruct (P_Long.ed_verify_long m s pk Hb Hl Hm Hs) as (v & -> & Hv).
  destruct v; split; split; intros H; try discriminate; try reflexivity.
  - exact (proj1 Hv eq_refl).
  - exact (False_ind _ (H (proj1 Hv eq_refl))).
  - apply Hv in H. discriminate.
  - intros K. apply Hv in K. discriminate.
Qed.

(** What is signed is accepted, whatever its length: a program that signs and verifies its own messages without overflow
    checks never notices. *)
Theorem C98_sign_verify : forall message secret_key,
  length secret_key = 32%nat -> bytes secret_key -> bytes message ->
  exists sig pk, ed_sign Unchecked message secret_key = Ok sig /\ ed_gen_pk Unchecked secret_key = Ok pk /\
    ed_verify Unchecked message sig pk = Ok true.
Proof.
  intros m sk Hl Hb Hm. exists (long_sign m sk), (rfc_public_key sk).
  split; [exact (C98_sign m sk Hl Hb Hm)|]. split; [exact (P_Ed25519.ed_gen_pk_ok Unchecked sk Hb Hl)|].
  apply (C98_verify m (long_sign m sk) (rfc_public_key sk)).
  - exact (P_Ed25519.enc_length _).
  - exact (P_Ed25519.enc_bytes _).
  - unfold long_sign. cbv zeta. apply Forall_app. split; [exact (P_Ed25519.enc_bytes _)|exact (BaseFacts.le_encode_bytes _ _)].
  - exact Hm.
  - exact (P_Long.verifies_long_sign m sk).
Qed.

(** Below 2^61 bytes (less 64 for what is hashed before the message) this is RFC 8032 and ref10. *)
Theorem C98_short : forall message,
  (len message < 2 ^ 61 -> forall V, SHAw V message = SHA V message) /\
  (forall sk, len message < 2 ^ 61 - 64 -> bytes sk -> long_sign message sk = rfc_sign message sk) /\
  (forall sig pk, len message < 2 ^ 61 - 64 -> length pk = 32%nat ->
     (long_verifies message sig pk <-> ref10_verifies message sig pk)).
Proof.
  intros m. split; [intros Lm V; exact (P_Sha2Stream.SHA_eq V m Lm)|]. split.
  - intros sk Lm Hb. unfold long_sign, rfc_sign. cbv zeta.
    rewrite (P_Long.H512w_short (ed_prefix sk ++ m)).
    + rewrite P_Long.H512w_short; [exact eq_refl|]. unfold len in *. rewrite !app_length.
      unfold rfc_public_key. rewrite !P_Ed25519.enc_length. clear -Lm. lia.
    + unfold len in *. rewrite app_length. unfold ed_prefix. rewrite skipn_length, (P_Ed25519.H512_length sk Hb). clear -Lm. lia.
  - intros sig pk Lm Lp. unfold long_verifies, ref10_verifies. split; intros (Ls & H); (split; [exact Ls|]);
      (assert (E : H512w (firstn 32 sig ++ pk ++ m) = H512 (firstn 32 sig ++ pk ++ m));
       [apply P_Long.H512w_short; unfold len in *; rewrite !app_length, firstn_length, Ls, Lp; clear -Lm; cbn [Nat.min]; lia|]).
    + rewrite E in H. exact H.
    + rewrite E. exact H.
Qed.
(** Beyond that, for the two functions with 64-bit words the length field is wrong, so that another string of blocks is hashed;
    for the two with 32-bit words, whose length field has 64 bits, FIPS 180-4 defines nothing beyond 2^61 bytes, and the field
    holds the low 64 bits of the length. *)
Theorem C98_length_field : forall message, 2 ^ 61 <= len message < 2 ^ 125 ->
  (forall V, V = spec_sha384 \/ V = spec_sha512 ->
     SHAw V message = hash_with V (8 * len message - 2 ^ 64 * (len message / 2 ^ 61)) message /\
     pad_with V ((8 * len message) mod 2 ^ 64) message <> pad_with V (8 * len message) message) /\
  (forall V, V = spec_sha224 \/ V = spec_sha256 -> SHAw V message = SHA V message).
Proof.
  intros m Lm. split; intros V HV.
  - split.
    + unfold SHAw. apply (f_equal (fun n => hash_with V n m)).
      rewrite Z.mod_eq by discriminate. change (2 ^ 64) with (8 * 2 ^ 61) at 2. rewrite Z.div_mul_cancel_l by discriminate. reflexivity.
    + intros E. unfold pad_with in E. do 3 apply app_inv_head in E.
      assert (W : wbytes V = 8%nat) by (destruct HV as [-> | ->]; exact eq_refl).
      rewrite W in E. apply (f_equal be_decode) in E. rewrite !BaseFacts.be_decode_encode in E.
      change (256 ^ Z.of_nat (2 * 8)) with (2 ^ 128) in E.
      pose proof (Z.mod_pos_bound (8 * len m) (2 ^ 64) eq_refl) as R.
      rewrite (Z.mod_small (8 * len m) (2 ^ 128)) in E by (clear -Lm; lia).
      rewrite Z.mod_small in E by (clear -R; lia). clear -E Lm R. lia.
  - assert (W : wbytes V = 4%nat) by (destruct HV as [-> | ->]; exact eq_refl).
    unfold SHAw, SHA, hash_with, pad_with. rewrite W. change (2 ^ 64) with (256 ^ Z.of_nat (2 * 4)).
    rewrite BaseFacts.be_encode_mod. exact eq_refl.
Qed.
Print Assumptions C98_length_field.
Print Assumptions C98_sha2.
Print Assumptions C98_hmac.
Print Assumptions C98_hkdf.
Print Assumptions C98_sign.
Print Assumptions C98_verify.
Print Assumptions C98_sign_verify.
Print Assumptions C98_short.

(** There are messages beyond the limit, and keys. *)
Example C98_ex : (exists m, bytes m /\ 2 ^ 61 < len m < 2 ^ 125) /\ (exists sk, length sk = 32%nat /\ bytes sk).
Proof.
  split.
  - exists (repeat 0 (Z.to_nat (2 ^ 61 + 1))). split; [apply BaseFacts.bytes_repeat; unfold byte_ok; clear; lia|].
    unfold len. rewrite repeat_length, Z2Nat.id; [split; reflexivity|discriminate].
  - exists (repeat 7 32). split; [reflexivity|]. apply BaseFacts.bytes_repeat. unfold byte_ok. clear; lia.
Qed.
