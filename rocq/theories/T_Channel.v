(** A channel between two parties made of the pieces of the crate. *)
From Verif Require Import Base Hist M_Sha2 M_Hkdf M_Curve25519 M_Poly1305 S_Sha2 S_Hmac S_ChaCha S_X25519.
From Verif Require BaseFacts P_Hmac P_Sha2Stream P_Ccp P_X25519 T_Hash T_X25519 T_Ccp.

(** One party: Diffie-Hellman with the other's public key, HKDF over the hash type [H], 32 bytes of key. *)
Definition session_key (H : HashFunction) (b : build) (their_pk my_sk salt info : list Z) : res (list Z) :=
  let! secret := x_dh b their_pk my_sk in
  let! prk := extract H b salt secret (repeat 0 (DIGEST_SIZE H)) in
  expand H b prk info (repeat 0 32).

Section Sizes.
Variables (H : HashFunction) (V : variant).
Hypothesis HV : sha2 H V.
Lemma hmac_size key text : bytes key -> len key < 2 ^ 61 -> bytes text ->
  bytes (HMAC_SHA2 V key text) /\ length (HMAC_SHA2 V key text) = digest_bytes V.
Proof.
  intros Bk Lk Bt. destruct (P_Sha2Stream.sha2_contract H V HV) as [R C].
  destruct (P_Hmac.hmac_key_length H V R C key Bk Lk) as [Lh Bh].
  unfold HMAC_SHA2, HMAC, SHA at 1 4. split; [apply P_Sha2Stream.SHA_bytes|].
  apply (P_Sha2Stream.hc_length _ _ _ C). apply BaseFacts.bytes_app. split; [|apply P_Sha2Stream.SHA_bytes].
  apply BaseFacts.xorl_bytes; [exact Bh|]. unfold opad. apply BaseFacts.bytes_repeat. unfold byte_ok. lia.
Qed.
Lemma t_size prk info : bytes prk -> len prk < 2 ^ 61 -> bytes info -> forall i, (i < 255)%nat ->
  bytes (HKDF_T (SHA V) (block_bytes V) prk info (S i)) /\ length (HKDF_T (SHA V) (block_bytes V) prk info (S i)) = digest_bytes V.
Proof.
  intros Bp Lp Bi. induction i as [|i IH]; intros Hi.
  - apply hmac_size; try assumption. apply BaseFacts.bytes_app. split; [constructor|].
    apply BaseFacts.bytes_app. split; [exact Bi|]. apply BaseFacts.bytesb_spec. reflexivity.
  - apply hmac_size; try assumption. apply BaseFacts.bytes_app. split; [apply IH; lia|].
    apply BaseFacts.bytes_app. split; [exact Bi|]. constructor; [unfold byte_ok; lia|constructor].
Qed.
Lemma okm_size prk info L : bytes prk -> len prk < 2 ^ 61 -> bytes info -> (L <= 255 * digest_bytes V)%nat ->
  bytes (HKDF_Expand_SHA2 V prk info L) /\ length (HKDF_Expand_SHA2 V prk info L) = L.
Proof.
  intros Bp Lp Bi HL. unfold HKDF_Expand_SHA2, HKDF_Expand. destruct (P_Sha2Stream.sha2_contract H V HV) as [R C].
  pose proof (P_Sha2Stream.hc_ds_range _ _ _ C) as D. set (ds := digest_bytes V) in *. set (N := ((L + ds - 1) / ds)%nat).
  assert (HN : (N <= 255)%nat) by (apply Nat.lt_succ_r, Nat.div_lt_upper_bound; lia).
  assert (HN2 : (L <= ds * N)%nat).
  { pose proof (Nat.div_mod (L + ds - 1) ds ltac:(lia)). pose proof (Nat.mod_upper_bound (L + ds - 1) ds ltac:(lia)). fold N in H0. lia. }
  assert (G : forall n i, (i + n <= 255)%nat -> let x := concat (map (HKDF_T (SHA V) (block_bytes V) prk info) (seq (S i) n)) in bytes x /\ length x = (ds * n)%nat).
  { clear -HV Bp Lp Bi. induction n as [|n IH]; intros i Hi; cbn [seq map concat]; [split; [constructor|cbn; lia]|].
    destruct (t_size prk info Bp Lp Bi i ltac:(lia)) as [B1 L1]. destruct (IH (S i) ltac:(lia)) as [B2 L2].
    split; [apply BaseFacts.bytes_app; split; assumption|]. rewrite app_length, L1, L2. fold ds. lia. }
  destruct (G N 0%nat ltac:(lia)) as [B1 L1]. split; [apply BaseFacts.bytes_firstn, B1|]. rewrite firstn_length, L1. lia.
Qed.
End Sizes.

(** ** C90.  Both parties get the same key, it is the RFC's, and what one seals the other opens. *)
Theorem C90_channel : forall H V, sha2 H V -> forall ba bb a b pka pkb salt info,
  length a = 32%nat -> bytes a -> length b = 32%nat -> bytes b ->
  bytes salt -> len salt < 2 ^ 61 -> bytes info -> len info < 2 ^ 60 ->
  x_gen_pk ba a = Ok pka -> x_gen_pk bb b = Ok pkb ->
  exists key, session_key H ba pkb a salt info = Ok key /\ session_key H bb pka b salt info = Ok key /\
  chacha_key key /\
  key = HKDF_Expand_SHA2 V (HKDF_Extract_SHA2 V salt (x25519 a (x25519 b (9 :: repeat 0 31)))) info 32 /\
  forall nonce data msg out out', chacha_nonce nonce -> is_slice data -> bytes msg -> len msg <= T_Ccp.checked_limit ->
  length out = length msg -> length out' = length msg ->
  exists c t, ccp_encrypt ba key msg nonce data out = Ok (c, t) /\ ccp_decrypt bb key c nonce data t out' = Ok (msg, true) /\
    forall t', t' <> t -> ccp_decrypt bb key c nonce data t' out' = Ok (out', false).
Proof.
  intros H V HV ba bb a b pka pkb salt info La Ba Lb Bb Bs Ls Bi Li Ga Gb.
  destruct (T_X25519.C38_key_agreement ba bb a b pka pkb La Ba Lb Bb Ga Gb) as (s & Sa & Sb).
  assert (H9 : length (9 :: repeat 0 31) = 32%nat /\ bytes (9 :: repeat 0 31))
    by (split; [reflexivity|now apply BaseFacts.bytesb_spec]).
  assert (Gb' := Gb). unfold x_gen_pk in Gb'. rewrite P_X25519.scalarmult_ok in Gb' by tauto. injection Gb' as Gb'.
  assert (X : forall u v, bytes (x25519 u v) /\ length (x25519 u v) = 32%nat).
  { intros u v. unfold x25519. split; [apply BaseFacts.le_encode_bytes|apply BaseFacts.le_encode_length]. }
  assert (Es : s = x25519 a (x25519 b (9 :: repeat 0 31))).
  { unfold x_dh in Sa. rewrite <- Gb' in Sa. rewrite P_X25519.scalarmult_ok in Sa by (try assumption; apply X). injection Sa as <-. reflexivity. }
  assert (Bsec : bytes s /\ length s = 32%nat) by (rewrite Es; apply X). clear X.
  destruct (P_Sha2Stream.sha2_contract H V HV) as [R C].
  pose proof (P_Sha2Stream.hc_ds_range _ _ _ C) as D. pose proof (P_Sha2Stream.hc_ds_block _ _ _ C). pose proof (P_Sha2Stream.hc_ds _ _ _ C) as Dd.
  assert (D28 : (28 <= digest_bytes V)%nat) by (destruct HV; cbn; lia).
  assert (BS : (BLOCK_SIZE H <= 128)%nat) by (destruct HV; cbn; lia).
  set (prk := HKDF_Extract_SHA2 V salt s).
  destruct (hmac_size H V HV salt s Bs Ls (proj1 Bsec)) as [Bp Lp]. change (HMAC_SHA2 V salt s) with prk in Bp, Lp.
  assert (Lp' : len prk < 2 ^ 61) by (unfold len; lia).
  assert (K : forall bld pk sk, x_dh bld pk sk = Ok s -> session_key H bld pk sk salt info = Ok (HKDF_Expand_SHA2 V prk info 32)).
  { intros bld pk sk E. unfold session_key. rewrite E. cbn [bind].
    rewrite (P_Hmac.hkdf_extract H V HV) by (try assumption; try apply Bsec; unfold len; lia).
    rewrite repeat_length, Nat.eqb_refl. cbn [bind]. fold prk. rewrite (P_Hmac.hkdf_expand H V HV) by assumption.
    rewrite repeat_length, Dd, Lp. rewrite (proj2 (Nat.leb_le _ _) (le_n _)), (proj2 (Nat.leb_le 32 _)) by lia.
    destruct bld; [rewrite (proj2 (Nat.ltb_lt 32 _)) by lia|]; reflexivity. }
  destruct (okm_size H V HV prk info 32 Bp Lp' Bi ltac:(lia)) as [Bok Lok].
  exists (HKDF_Expand_SHA2 V prk info 32). split; [apply K, Sa|]. split; [apply K, Sb|]. split; [split; assumption|].
  split; [unfold prk; now rewrite Es|].
  generalize dependent (HKDF_Expand_SHA2 V prk info 32). intros key _ Bkey Lkey. clear -Bkey Lkey.
  intros nonce data msg out out' Hn Hd Bm Lm Ho Ho'.
  assert (Hm : is_slice msg) by (split; [exact Bm|unfold T_Ccp.checked_limit in Lm; lia]).
  destruct (P_Ccp.encrypt_ok key nonce Lkey (proj1 Hn) Bkey (proj2 Hn) msg data Bm (proj1 Hd) (proj2 Hd) (proj2 Hm)) as (t & _ & _ & _ & _ & E).
  specialize (fun bld => E bld out Ho (or_intror Lm)).
  exists (P_Ccp.crypt key nonce msg), t. split; [apply E|].
  assert (DT : ccp_decrypt bb key (P_Ccp.crypt key nonce msg) nonce data t out' = Ok (msg, true)).
  { apply (T_Ccp.C18_roundtrip bb bb key nonce data msg out out' _ t (conj Lkey Bkey) Hn Hd Hm (E bb)); [now left|exact Ho']. }
  split; [exact DT|]. intros t' Ht.
  assert (Hc : is_slice (P_Ccp.crypt key nonce msg)) by (split; [apply P_Ccp.crypt_bytes, Bm|unfold len; rewrite P_Ccp.crypt_length; apply Hm]).
  destruct (P_Ccp.decrypt_ok key nonce Lkey (proj1 Hn) Bkey (proj2 Hn) _ data (proj1 Hc) (proj1 Hd) (proj2 Hd) (proj2 Hc)) as (t2 & _ & _ & _ & _ & F).
  assert (Et : t = t2).
  { destruct (list_eq_dec Z.eq_dec t t2) as [|N]; [assumption|]. rewrite F in DT by (try exact N; rewrite P_Ccp.crypt_length; exact Ho'). discriminate. }
  apply F; [rewrite P_Ccp.crypt_length; exact Ho'|congruence].
Qed.
Print Assumptions C90_channel.
(** The hypotheses are met by any two secret keys. *)
Example C90_ex : exists pka pkb, x_gen_pk Checked (repeat 1 32) = Ok pka /\ x_gen_pk Unchecked (repeat 2 32) = Ok pkb.
Proof.
  do 2 eexists. split; apply T_X25519.C37_gen_pk with (base := 9 :: repeat 0 31);
    first [reflexivity | apply BaseFacts.bytesb_spec; reflexivity].
Qed.
