(** Property theorems C01-C12: util, sha2, hmac, hkdf. *)
From Coq Require Import String.
From Verif Require Import Base Hex M_Util M_Sha2 M_Hmac M_Hkdf S_Sha2 S_Hmac Hist.
From Verif Require P_Util P_Sha2Stream P_Hmac.

(** ** C01 *)
Theorem C01_verify_16_exact : forall x y : list Z, length x = 16%nat ->
  exists v, verify_16 x y = Ok v /\ (v = true <-> y = x).
Proof. exact P_Util.verify_16_exact. Qed.
Print Assumptions C01_verify_16_exact.
Example C01_ex : verify_16 (repeat 7 16) (repeat 7 16) = Ok true /\ verify_16 (repeat 7 16) (repeat 7 15) = Ok false
  /\ verify_16 (repeat 7 16) (repeat 7 15 ++ [6]) = Ok false.
Proof. repeat split; reflexivity. Qed.

(** ** C02 *)
Theorem C02_sha2_oneshot : forall H V, sha2 H V -> forall (b : build) (msg : list Z),
  bytes msg -> len msg < 2 ^ 61 -> hash_wrapper H b msg = Ok (SHA V msg).
Proof. exact P_Sha2Stream.sha2_oneshot. Qed.
Print Assumptions C02_sha2_oneshot.
(** The exported functions are these wrappers. *)
Example C02_names : sha512 = hash_wrapper Sha512 /\ sha384 = hash_wrapper Sha384
  /\ sha256 = hash_wrapper Sha256 /\ sha224 = hash_wrapper Sha224.
Proof. repeat split; reflexivity. Qed.
Example C02_ex : bytes (s2b "abc") /\ len (s2b "abc") < 2 ^ 61 /\
  SHA spec_sha256 (s2b "abc") = h2b "ba7816bf8f01cfea414140de5dae2223b00361a396177a9cb410ff61f20015ad".
Proof. split; [apply BaseFacts.bytesb_spec; reflexivity|split; reflexivity || (vm_compute; reflexivity)]. Qed.

(** ** C03 *)
Theorem C03_sha2_streaming : forall H V, sha2 H V -> forall (b : build) (inputs : list (list Z)),
  Forall bytes inputs -> len (concat inputs) < 2 ^ 61 ->
  exists s, hash_updates H b (hdefault H) inputs = Ok s /\
    forall out, length out = DIGEST_SIZE H -> hwrite_digest H b s out = Ok (SHA V (concat inputs)).
Proof. exact P_Sha2Stream.sha2_stream. Qed.
Print Assumptions C03_sha2_streaming.
Example C03_ex : exists s, hash_updates Sha512 Checked (hdefault Sha512) [s2b "a"; []; s2b "bc"] = Ok s /\
  hwrite_digest Sha512 Checked s (repeat 9 64) = hash_wrapper Sha512 Unchecked (s2b "abc").
Proof. eexists; split; [vm_compute; reflexivity|]. vm_compute. reflexivity. Qed.

(** ** C04 *)
Theorem C04_write_digest_contract : forall H V, sha2 H V -> forall (b : build) (inputs : list (list Z)) s,
  Forall bytes inputs -> len (concat inputs) < 2 ^ 61 ->
  hash_updates H b (hdefault H) inputs = Ok s ->
  (forall out, hwrite_digest H b s out = Panic <-> length out <> DIGEST_SIZE H) /\
  (forall out out', length out = DIGEST_SIZE H -> length out' = DIGEST_SIZE H ->
     hwrite_digest H b s out = hwrite_digest H b s out') /\
  (forall out d, hwrite_digest H b s out = Ok d -> length d = DIGEST_SIZE H /\ bytes d).
Proof. exact P_Sha2Stream.sha2_write_digest. Qed.
Print Assumptions C04_write_digest_contract.
Example C04_ex : DIGEST_SIZE Sha224 = 28%nat /\
  hwrite_digest Sha224 Checked (hdefault Sha224) (repeat 0 27) = Panic /\
  hwrite_digest Sha224 Checked (hdefault Sha224) (repeat 0 28) = Ok (SHA spec_sha224 []).
Proof. vm_compute. auto. Qed.

(** ** C05: [hash_with V n m] is the FIPS 180-4 computation with [n] in the length field. *)
Theorem C05_sha2_past_limit : forall H V, sha2 H V -> forall (inputs : list (list Z)) (out : list Z),
  Forall bytes inputs -> length out = DIGEST_SIZE H ->
  (2 ^ 61 <= len (concat inputs) < 2 ^ 64 ->
     exists s, hash_updates H Checked (hdefault H) inputs = Ok s /\ hwrite_digest H Checked s out = Panic) /\
  (2 ^ 64 <= len (concat inputs) -> hash_updates H Checked (hdefault H) inputs = Panic) /\
  (exists s, hash_updates H Unchecked (hdefault H) inputs = Ok s /\
     hwrite_digest H Unchecked s out =
       Ok (hash_with V ((8 * len (concat inputs)) mod 2 ^ 64) (concat inputs))).
Proof. exact P_Sha2Stream.sha2_long. Qed.
Print Assumptions C05_sha2_past_limit.
(** Such histories exist (stated without building the list). *)
Example C05_ex : let inputs := [repeat 0 (Z.to_nat (2 ^ 61))] in
  Forall bytes inputs /\ 2 ^ 61 <= len (concat inputs) < 2 ^ 64.
Proof.
  cbv zeta. split.
  - constructor; [|constructor]. apply BaseFacts.bytes_repeat. unfold byte_ok; lia.
  - cbn [concat]. rewrite app_nil_r. unfold len. rewrite repeat_length, Z2Nat.id by lia. lia.
Qed.

(** ** C06 *)
Theorem C06_hmac_rfc2104 : forall H V, sha2 H V -> forall (b : build) (key : list Z) (inputs : list (list Z)),
  bytes key -> len key < 2 ^ 61 -> Forall bytes inputs ->
  Z.of_nat (BLOCK_SIZE H) + len (concat inputs) < 2 ^ 61 ->
  hmac_tag_of H b key inputs = Ok (HMAC_SHA2 V key (concat inputs)).
Proof. exact P_Hmac.hmac_history. Qed.
Print Assumptions C06_hmac_rfc2104.

Theorem C06_hmac_wrappers : forall H V, sha2 H V -> forall (b : build) (key msg : list Z),
  bytes key -> len key < 2 ^ 61 -> bytes msg -> Z.of_nat (BLOCK_SIZE H) + len msg < 2 ^ 61 ->
  hmac_wrapper H b key msg = Ok (HMAC_SHA2 V key msg).
Proof. exact P_Hmac.hmac_oneshot. Qed.
Print Assumptions C06_hmac_wrappers.
Example C06_ex : (* RFC 4231 test case 2, and a key longer than a block *)
  hmac_tag_of Sha256 Checked (s2b "Jefe") [s2b "what do ya want "; s2b "for nothing?"] =
    Ok (h2b "5bdcc146bf60754e6a042426089575c75a003f089d2739839dec58b964ec3843") /\
  hmac_wrapper Sha256 Checked (repeat 0xaa 131) (s2b "Test Using Larger Than Block-Size Key - Hash Key First") =
    Ok (h2b "60e431591ee0b67f0d8a26aacbf5b77f8e0bc6213728c5140546040f0ee37f54").
Proof. split; vm_compute; reflexivity. Qed.

(** ** C07 *)
Theorem C07_hmac_verify_exact : forall H V, sha2 H V -> forall (b : build) (key msg tg : list Z),
  bytes key -> len key < 2 ^ 61 -> bytes msg -> Z.of_nat (BLOCK_SIZE H) + len msg < 2 ^ 61 ->
  hmac_verify H b key msg tg = Ok true /\ tg = HMAC_SHA2 V key msg \/
  hmac_verify H b key msg tg = Ok false /\ tg <> HMAC_SHA2 V key msg.
Proof. exact P_Hmac.hmac_verify_exact. Qed.
Print Assumptions C07_hmac_verify_exact.
Example C07_ex : let t := h2b "5bdcc146bf60754e6a042426089575c75a003f089d2739839dec58b964ec3843" in
  hmac_verify Sha256 Checked (s2b "Jefe") (s2b "what do ya want for nothing?") t = Ok true /\
  hmac_verify Sha256 Checked (s2b "Jefe") (s2b "what do ya want for nothing?") (firstn 16 t) = Ok false /\
  hmac_verify Sha256 Checked (s2b "Jefe") (s2b "what do ya want for nothing!") t = Ok false.
Proof. vm_compute. auto. Qed.

(** ** C08 *)
Theorem C08_hmac_long_key : forall H V, sha2 H V -> forall (b : build) (key digest : list Z) (inputs : list (list Z)),
  bytes key -> len key < 2 ^ 61 -> Forall bytes inputs -> Z.of_nat (BLOCK_SIZE H) + len (concat inputs) < 2 ^ 61 ->
  (BLOCK_SIZE H < length key)%nat -> hash_wrapper H b key = Ok digest ->
  hmac_tag_of H b digest inputs = hmac_tag_of H b key inputs.
Proof. exact P_Hmac.hmac_long_key. Qed.
Print Assumptions C08_hmac_long_key.
Theorem C08_hmac_zero_extended_key : forall H V, sha2 H V -> forall (b : build) (key : list Z) (n : nat) (inputs : list (list Z)),
  bytes key -> Forall bytes inputs -> Z.of_nat (BLOCK_SIZE H) + len (concat inputs) < 2 ^ 61 ->
  (length key + n <= BLOCK_SIZE H)%nat ->
  hmac_tag_of H b (key ++ repeat 0 n) inputs = hmac_tag_of H b key inputs.
Proof. exact P_Hmac.hmac_zero_key. Qed.
Print Assumptions C08_hmac_zero_extended_key.
Example C08_ex : (BLOCK_SIZE Sha256 < length (repeat 0xaa 65))%nat /\ (length (s2b "Jefe") + 60 <= BLOCK_SIZE Sha256)%nat
  /\ hmac_tag_of Sha256 Checked (s2b "Jefe" ++ repeat 0 60) [[1]] = hmac_tag_of Sha256 Checked (s2b "Jefe") [[1]]
  /\ hmac_tag_of Sha256 Checked (s2b "Jefe" ++ repeat 0 60) [[1]] <> hmac_tag_of Sha256 Checked (s2b "Jefe" ++ repeat 0 61) [[1]].
Proof. vm_compute. repeat split; try lia; discriminate. Qed.

(** ** C09 *)
Theorem C09_hkdf_extract : forall H V, sha2 H V -> forall (b : build) (salt ikm prk : list Z),
  bytes salt -> len salt < 2 ^ 61 -> bytes ikm -> Z.of_nat (BLOCK_SIZE H) + len ikm < 2 ^ 61 ->
  extract H b salt ikm prk =
    if (length prk =? DIGEST_SIZE H)%nat then Ok (HKDF_Extract_SHA2 V salt ikm) else Panic.
Proof. exact P_Hmac.hkdf_extract. Qed.
Print Assumptions C09_hkdf_extract.
Theorem C09_empty_salt : forall H V, sha2 H V -> forall ikm,
  HKDF_Extract_SHA2 V [] ikm = HKDF_Extract_SHA2 V (repeat 0 (DIGEST_SIZE H)) ikm.
Proof. exact P_Hmac.hkdf_empty_salt. Qed.
Print Assumptions C09_empty_salt.
Example C09_ex : (* RFC 5869 test case 1 *)
  extract Sha256 Checked (h2b "000102030405060708090a0b0c") (repeat 0x0b 22) (repeat 0 32) =
    Ok (h2b "077709362c2e32df0ddc3f0dc47bba6390b6c73bb50f9c3122ec844ad7c2b3e5") /\
  extract Sha256 Checked (h2b "000102030405060708090a0b0c") (repeat 0x0b 22) (repeat 0 31) = Panic.
Proof. split; vm_compute; reflexivity. Qed.

(** ** C10: build without overflow checks, all documented lengths. *)
Theorem C10_hkdf_expand_unchecked : forall H V, sha2 H V -> forall (prk info okm : list Z),
  bytes prk -> len prk < 2 ^ 61 -> bytes info -> len info < 2 ^ 60 ->
  expand H Unchecked prk info okm =
    if (DIGEST_SIZE H <=? length prk)%nat && (length okm <=? 255 * DIGEST_SIZE H)%nat
    then Ok (HKDF_Expand_SHA2 V prk info (length okm)) else Panic.
Proof.
  exact (fun H V HV prk info okm h1 h2 h3 h4 =>
    eq_trans (P_Hmac.hkdf_expand H V HV Unchecked prk info okm h1 h2 h3 h4)
      (f_equal (fun c : bool => if c then _ else Panic) (Bool.andb_true_r _))).
Qed.
Print Assumptions C10_hkdf_expand_unchecked.
Example C10_ex : (* RFC 5869 test case 1 *)
  expand Sha256 Unchecked (h2b "077709362c2e32df0ddc3f0dc47bba6390b6c73bb50f9c3122ec844ad7c2b3e5")
    (h2b "f0f1f2f3f4f5f6f7f8f9") (repeat 0 42) =
  Ok (h2b "3cb25f25faacd57a90434f64d0362f2a2d2d0a90cf1a5a4c5db02d56ecc4c5bf34007208d5b887185865").
Proof. vm_compute. reflexivity. Qed.

(** ** C11: with overflow checks the documented limit does not hold; the exact limit is 254 digests, exclusive. *)
Theorem C11_hkdf_expand_checked_exact_limit : forall H V, sha2 H V -> forall (prk info okm : list Z),
  bytes prk -> len prk < 2 ^ 61 -> bytes info -> len info < 2 ^ 60 -> (DIGEST_SIZE H <= length prk)%nat ->
  (length okm < 254 * DIGEST_SIZE H -> expand H Checked prk info okm = Ok (HKDF_Expand_SHA2 V prk info (length okm)))%nat /\
  (254 * DIGEST_SIZE H <= length okm <= 255 * DIGEST_SIZE H ->
     expand H Checked prk info okm = Panic /\
     expand H Unchecked prk info okm = Ok (HKDF_Expand_SHA2 V prk info (length okm)))%nat.
Proof. exact P_Hmac.hkdf_expand_checked. Qed.
Print Assumptions C11_hkdf_expand_checked_exact_limit.
Theorem C11_hkdf_expand_checked_limit_refuted :
  ~ (forall H V, sha2 H V -> forall prk info okm : list Z, bytes prk -> bytes info ->
       expand H Checked prk info okm = Panic ->
       length prk < DIGEST_SIZE H \/ 255 * DIGEST_SIZE H < length okm)%nat.
Proof. exact P_Hmac.hkdf_expand_checked_refuted. Qed.
Print Assumptions C11_hkdf_expand_checked_limit_refuted.

(** ** C12 *)
Theorem C12_hkdf_prefix : forall H V, sha2 H V -> forall (b : build) (prk info okm okm' out : list Z),
  bytes prk -> len prk < 2 ^ 61 -> bytes info -> len info < 2 ^ 60 ->
  (length okm' <= length okm)%nat -> expand H b prk info okm = Ok out ->
  expand H b prk info okm' = Ok (firstn (length okm') out).
Proof. exact P_Hmac.hkdf_expand_prefix. Qed.
Print Assumptions C12_hkdf_prefix.
Example C12_ex : exists out, expand Sha256 Checked (repeat 5 32) [1;2] (repeat 0 70) = Ok out /\
  expand Sha256 Checked (repeat 5 32) [1;2] (repeat 0 33) = Ok (firstn 33 out).
Proof. eexists; split; vm_compute; reflexivity. Qed.
