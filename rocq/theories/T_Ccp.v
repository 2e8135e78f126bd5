(** Property theorems C18-C24: ChaCha20-Poly1305. *)
From Coq Require Import String.
From Verif Require Import Base Hex M_ChaCha20 M_Poly1305 S_ChaCha.
From Verif Require P_Ccp P_Poly1305 Mono.

(** [ccp_encrypt b key msg nonce data out = Ok (c, t)]: the call
    [ChaCha20Poly1305::new(key).encrypt(msg, nonce, data, &mut out)] returns the tag
    [t] and leaves [c] in [out]. *)

(** The longest message a build with overflow checks can encrypt. *)
Definition checked_limit : Z := 2 ^ 38 - 192.

Definition ex_key : list Z := h2b "000102030405060708090a0b0c0d0e0f101112131415161718191a1b1c1d1e1f".
Definition ex_nonce : list Z := h2b "000000000000004a00000000".
Ltac ok_bytes := repeat split; try apply BaseFacts.bytesb_spec; reflexivity.

(** ** C18 *)
Theorem C18_roundtrip : forall (b b' : build) key nonce data msg out out' c t,
  chacha_key key -> chacha_nonce nonce -> is_slice data -> is_slice msg ->
  ccp_encrypt b key msg nonce data out = Ok (c, t) ->
  (* the other side may be built without overflow checks *)
  b' = b \/ b' = Unchecked -> length out' = length msg ->
  ccp_decrypt b' key c nonce data t out' = Ok (msg, true).
Proof.
  intros b b' key nonce data msg out out' c t [Hk Bk] [Hn Bn] [Bd Ld] [Bm Lm] E Hb Ho.
  destruct (Nat.eq_dec (length msg) (length out)) as [Hl|Hl].
  2:{ rewrite P_Ccp.encrypt_bad_args in E by auto. discriminate. }
  destruct (P_Ccp.encrypt_ok key nonce Hk Hn Bk Bn msg data Bm Bd Ld Lm) as (t1 & _ & _ & _ & Et & E1).
  assert (Hlim : b = Unchecked \/ len msg <= checked_limit).
  { destruct b; [right|left; reflexivity]. destruct (Z.le_gt_cases (len msg) checked_limit) as [|Hgt]; [assumption|].
    rewrite P_Ccp.encrypt_panic in E by (try assumption; try exact Hgt; congruence). discriminate. }
  rewrite E1 in E by (try assumption; congruence). injection E as <- <-.
  assert (Hlen : len (P_Ccp.crypt key nonce msg) = len msg) by (unfold len; now rewrite P_Ccp.crypt_length).
  destruct (P_Ccp.decrypt_ok key nonce Hk Hn Bk Bn (P_Ccp.crypt key nonce msg) data) as (t2 & _ & _ & E2 & D2 & _);
    [apply P_Ccp.crypt_bytes; assumption|assumption|assumption|lia|].
  rewrite P_Ccp.crypt_crypt in *.
  rewrite Hlen in *. rewrite P_Ccp.crypt_length in *.
  assert (t1 = t2) as ->.
  { specialize (E1 b out ltac:(congruence) Hlim). rewrite E2 in E1 by (try assumption; congruence). congruence. }
  apply D2; [assumption|]. destruct Hb as [->| ->]; [exact Hlim|auto].
Qed.
Print Assumptions C18_roundtrip.
Example C18_ex : exists c t, ccp_encrypt Checked ex_key (s2b "hello") ex_nonce (s2b "hdr") (repeat 1 5) = Ok (c, t) /\
  ccp_decrypt Unchecked ex_key c ex_nonce (s2b "hdr") t (repeat 2 5) = Ok (s2b "hello", true).
Proof. do 2 eexists. split; [vm_compute; reflexivity|]. vm_compute. reflexivity. Qed.

(** ** C19: for every ciphertext there is one message and one tag such that encrypting
    the message gives them, decrypting with the tag gives the message, and
    decrypting with any other tag (of any length) gives [false] and the old buffer. *)
Theorem C19_decrypt_accepts_exactly : forall key nonce data ct,
  chacha_key key -> chacha_nonce nonce -> is_slice data -> is_slice ct ->
  exists msg t, length msg = length ct /\
    (forall b out, length out = length ct -> b = Unchecked \/ len ct <= checked_limit ->
       ccp_encrypt b key msg nonce data out = Ok (ct, t) /\
       ccp_decrypt b key ct nonce data t out = Ok (msg, true)) /\
    (forall b out tag, length out = length ct -> tag <> t ->
       ccp_decrypt b key ct nonce data tag out = Ok (out, false)).
Proof.
  intros key nonce data ct [Hk Bk] [Hn Bn] [Bd Ld] [Bc Lc].
  destruct (P_Ccp.decrypt_ok key nonce Hk Hn Bk Bn ct data Bc Bd Ld Lc) as (t & _ & _ & E & D & F).
  exists (P_Ccp.crypt key nonce ct), t. split; [apply P_Ccp.crypt_length|]. split; [|exact F].
  intros b out Ho Hb. split; [now apply E|now apply D].
Qed.
Print Assumptions C19_decrypt_accepts_exactly.
Example C19_ex : ccp_decrypt Checked ex_key [1; 2; 3] ex_nonce (s2b "hdr") (repeat 0 16) [7; 8; 9] = Ok ([7; 8; 9], false) /\
  ccp_decrypt Checked ex_key [1; 2; 3] ex_nonce (s2b "hdr") [] [7; 8; 9] = Ok ([7; 8; 9], false).
Proof. split; vm_compute; reflexivity. Qed.

(** ** C20 *)
Theorem C20_ciphertext_is_rfc8439 : forall b key nonce data msg out,
  chacha_key key -> chacha_nonce nonce -> is_slice data -> is_slice msg -> length out = length msg ->
  len msg <= checked_limit \/ (b = Unchecked /\ len msg <= 2 ^ 38 - 64) ->
  exists t, ccp_encrypt b key msg nonce data out = Ok (aead_ciphertext key nonce msg, t).
Proof.
  intros b key nonce data msg out [Hk Bk] [Hn Bn] [Bd Ld] [Bm Lm] Ho Hb.
  destruct (P_Ccp.encrypt_ok key nonce Hk Hn Bk Bn msg data Bm Bd Ld Lm) as (t & _ & _ & _ & _ & E).
  exists t. rewrite <- P_Ccp.crypt_rfc by (unfold checked_limit in Hb; lia). apply E; [assumption|].
  unfold P_Ccp.LIM. unfold checked_limit in Hb. tauto.
Qed.
Print Assumptions C20_ciphertext_is_rfc8439.
(** The start of the RFC 8439 section 2.8.2 example. *)
Example C20_ex : aead_ciphertext (map Z.of_nat (seq 128 32)) (h2b "070000004041424344454647") (s2b "Ladies") = h2b "d31a8d34648e".
Proof. vm_compute. reflexivity. Qed.

(** ** C21: the tag is not always the RFC's.
    It is when the Poly1305 accumulator, before the final addition of s, is at least 2^22+5. *)
Theorem C21_tag_is_rfc8439_partial : forall b key nonce data msg out c t,
  chacha_key key -> chacha_nonce nonce -> is_slice data -> is_slice msg ->
  ccp_encrypt b key msg nonce data out = Ok (c, t) ->
  2 ^ 22 + 5 <= rfc8439_acc key nonce data c ->
  t = rfc8439_tag key nonce data c.
Proof.
  intros b key nonce data msg out c t [Hk Bk] [Hn Bn] [Bd Ld] [Bm Lm] E HV.
  destruct (Nat.eq_dec (length msg) (length out)) as [Hl|Hl].
  2:{ rewrite P_Ccp.encrypt_bad_args in E by auto. discriminate. }
  destruct (P_Ccp.encrypt_ok key nonce Hk Hn Bk Bn msg data Bm Bd Ld Lm) as (t1 & _ & _ & V & _ & E1).
  assert (Hlim : b = Unchecked \/ len msg <= checked_limit).
  { destruct b; [right|left; reflexivity]. destruct (Z.le_gt_cases (len msg) checked_limit) as [|Hgt]; [assumption|].
    rewrite P_Ccp.encrypt_panic in E by (try assumption; try exact Hgt; congruence). discriminate. }
  rewrite E1 in E by (try assumption; congruence). injection E as <- <-. apply V, HV.
Qed.
Print Assumptions C21_tag_is_rfc8439_partial.
(** In all cases the tag is the RFC's or, for an accumulator below 2^22+5 only, one fixed function of the one-time key
    and the authenticated bytes, which always differs from the RFC's tag. *)
Theorem C21_tag_or_faulty_partial : forall b key nonce data msg out c t,
  chacha_key key -> chacha_nonce nonce -> is_slice data -> is_slice msg ->
  ccp_encrypt b key msg nonce data out = Ok (c, t) ->
  t = rfc8439_tag key nonce data c \/
  (t = faulty_tag key nonce data c /\ t <> rfc8439_tag key nonce data c /\ rfc8439_acc key nonce data c < 2 ^ 22 + 5).
Proof.
  intros b key nonce data msg out c t [Hk Bk] [Hn Bn] [Bd Ld] [Bm Lm] E.
  destruct (Nat.eq_dec (length msg) (length out)) as [Hl|Hl].
  2:{ rewrite P_Ccp.encrypt_bad_args in E by auto. discriminate. }
  destruct (P_Ccp.encrypt_ok key nonce Hk Hn Bk Bn msg data Bm Bd Ld Lm) as (t1 & _ & _ & [V D] & _ & E1).
  assert (Hlim : b = Unchecked \/ len msg <= checked_limit).
  { destruct b; [right|left; reflexivity]. destruct (Z.le_gt_cases (len msg) checked_limit) as [|Hgt]; [assumption|].
    rewrite P_Ccp.encrypt_panic in E by (try assumption; try exact Hgt; congruence). discriminate. }
  rewrite E1 in E by (try assumption; congruence). injection E as <- <-.
  destruct D as [D|D]; [left; exact D|right]. split; [exact D|].
  assert (N : t1 <> rfc8439_tag key nonce data (P_Ccp.crypt key nonce msg)).
  { rewrite D. apply P_Poly1305.faulty_first. }
  split; [exact N|]. apply Z.nle_gt. intros HV. exact (N (V HV)).
Qed.
Print Assumptions C21_tag_or_faulty_partial.
Example C21_ex : exists c t, ccp_encrypt Checked ex_key (s2b "hello") ex_nonce (s2b "hdr") (repeat 1 5) = Ok (c, t) /\
  2 ^ 22 + 5 <= rfc8439_acc ex_key ex_nonce (s2b "hdr") c.
Proof. do 2 eexists. split; [vm_compute; reflexivity|]. apply Z.leb_le. vm_compute. reflexivity. Qed.

(** A key, nonce and data for which the tag of the empty message is not the RFC's. *)
Definition bad_data : list Z := h2b "39f3c3e693114351dcbed407e3e6b605e88b73ec4ccedac200f37ef9882e3651".
Theorem C21_tag_is_rfc8439_refuted :
  chacha_key ex_key /\ chacha_nonce ex_nonce /\ is_slice bad_data /\
  forall b, exists t, ccp_encrypt b ex_key [] ex_nonce bad_data [] = Ok ([], t) /\
    t <> rfc8439_tag ex_key ex_nonce bad_data [] /\ t = faulty_tag ex_key ex_nonce bad_data [].
Proof.
  repeat (split; [ok_bytes|]). intros b. exists (h2b "cc57a1296cca4ab8f5559bb2eee1ddae"). split.
  - destruct b; vm_compute; reflexivity.
  - assert (E : rfc8439_tag ex_key ex_nonce bad_data [] = h2b "d258a22a6dcb4bb9f6569cb3efe2deaf") by (vm_compute; reflexivity).
    rewrite E. split; [vm_compute; discriminate|vm_compute; reflexivity].
Qed.
Print Assumptions C21_tag_is_rfc8439_refuted.

(** ** C22 *)
Theorem C22_poly1305_never_overflows : forall key data ct,
  chacha_key key -> is_slice data -> is_slice ct ->
  exists t, length t = 16%nat /\ bytes t /\ forall b, poly1305 b key data ct = Ok t.
Proof.
  intros key data ct [Hk Bk] [Bd Ld] [Bc Lc].
  destruct (P_Poly1305.poly1305_ok Checked key data ct Bk Hk Bd Bc Ld Lc) as (t & E & Bt & Lt & _).
  exists t. split; [assumption|]. split; [assumption|]. intros b.
  apply (Mono.rle_any (fun b => poly1305 b key data ct)); [apply P_Poly1305.poly1305_mono|exact E].
Qed.
Print Assumptions C22_poly1305_never_overflows.
Theorem C22_tags_agree_across_builds : forall key nonce data msg,
  chacha_key key -> chacha_nonce nonce -> is_slice data -> is_slice msg -> len msg <= checked_limit ->
  exists c t, length t = 16%nat /\ bytes t /\
    forall b out, length out = length msg -> ccp_encrypt b key msg nonce data out = Ok (c, t).
Proof.
  intros key nonce data msg [Hk Bk] [Hn Bn] [Bd Ld] [Bm Lm] Hlim.
  destruct (P_Ccp.encrypt_ok key nonce Hk Hn Bk Bn msg data Bm Bd Ld Lm) as (t & Bt & Lt & _ & _ & E).
  exists (P_Ccp.crypt key nonce msg), t. split; [assumption|]. split; [assumption|]. intros b out Ho. apply E; auto.
Qed.
Print Assumptions C22_tags_agree_across_builds.
(** The extreme inputs: largest clamped r, all-ones data. *)
Example C22_ex : exists t, poly1305 Checked (repeat 255 32) (repeat 255 64) (repeat 255 33) = Ok t.
Proof. eexists. vm_compute. reflexivity. Qed.

(** ** C23: long messages. *)
(** A build with overflow checks, or a message up to 2^38-64 bytes: the counters are 1, 2, ... below 2^32,
    so no keystream block is used twice and block 0 is not used. *)
Theorem C23_no_keystream_reuse_partial : forall b key nonce data msg out c t,
  chacha_key key -> chacha_nonce nonce -> is_slice data -> is_slice msg ->
  b = Checked \/ len msg <= 2 ^ 38 - 64 ->
  ccp_encrypt b key msg nonce data out = Ok (c, t) ->
  len msg <= 2 ^ 38 - 64 /\
  forall n, (n < length msg)%nat ->
    64 <= Z.of_nat n + 64 < 2 ^ 38 /\
    nth n c 0 = Z.lxor (nth n msg 0) (keystream_byte key nonce (Z.of_nat n + 64)).
Proof.
  intros b key nonce data msg out c t [Hk Bk] [Hn Bn] [Bd Ld] [Bm Lm] Hb E.
  destruct (Nat.eq_dec (length msg) (length out)) as [Hl|Hl].
  2:{ rewrite P_Ccp.encrypt_bad_args in E by auto. discriminate. }
  destruct (P_Ccp.encrypt_ok key nonce Hk Hn Bk Bn msg data Bm Bd Ld Lm) as (t1 & _ & _ & _ & _ & E1).
  assert (Hlim : b = Unchecked \/ len msg <= checked_limit).
  { destruct b; [right|left; reflexivity]. destruct (Z.le_gt_cases (len msg) checked_limit) as [|Hgt]; [assumption|].
    rewrite P_Ccp.encrypt_panic in E by (try assumption; try exact Hgt; congruence). discriminate. }
  rewrite E1 in E by (try assumption; congruence). injection E as <- <-.
  assert (Hl2 : len msg <= 2 ^ 38 - 64) by (unfold checked_limit in Hlim; destruct Hb, Hlim; subst; try discriminate; lia).
  split; [exact Hl2|]. intros n Hn'. unfold len in Hl2. split; [lia|].
  rewrite P_Ccp.crypt_nth by assumption. rewrite Z.mod_small by lia. reflexivity.
Qed.
Print Assumptions C23_no_keystream_reuse_partial.
(** In a build without overflow checks every longer message breaks the claim: bytes from offset 2^38-64 are
    encrypted with the one-time Poly1305 key, and from offset 2^38 on with the keystream of offset 0 on. *)
Theorem C23_no_keystream_reuse_refuted : forall key nonce data msg out,
  chacha_key key -> chacha_nonce nonce -> is_slice data -> is_slice msg -> length out = length msg ->
  exists c t, ccp_encrypt Unchecked key msg nonce data out = Ok (c, t) /\
    (forall j, (j < 32)%nat -> 2 ^ 38 - 64 + Z.of_nat j < len msg ->
       let n := Z.to_nat (2 ^ 38 - 64 + Z.of_nat j) in
       nth n c 0 = Z.lxor (nth n msg 0) (nth j (one_time_key key nonce) 0)) /\
    (forall j, 2 ^ 38 + Z.of_nat j < len msg ->
       let n := Z.to_nat (2 ^ 38 + Z.of_nat j) in
       Z.lxor (nth n c 0) (nth n msg 0) = Z.lxor (nth j c 0) (nth j msg 0)).
Proof.
  intros key nonce data msg out [Hk Bk] [Hn Bn] [Bd Ld] [Bm Lm] Ho.
  destruct (P_Ccp.encrypt_ok key nonce Hk Hn Bk Bn msg data Bm Bd Ld Lm) as (t & _ & _ & _ & _ & E).
  exists (P_Ccp.crypt key nonce msg), t. split; [apply E; auto|]. split.
  - intros j Hj Hm n. unfold len in Hm. rewrite P_Ccp.crypt_nth by (unfold n; lia). f_equal.
    rewrite <- P_Ccp.keystream_otk by assumption. unfold n. rewrite Z2Nat.id by lia.
    replace (2 ^ 38 - 64 + Z.of_nat j + 64) with (Z.of_nat j + 1 * 2 ^ 38) by lia. rewrite Z.mod_add by lia.
    rewrite Z.mod_small by lia. reflexivity.
  - intros j Hm n. unfold len in Hm. rewrite !P_Ccp.crypt_nth by (unfold n; lia).
    rewrite !(Z.lxor_comm (nth _ msg 0)), !BaseFacts.lxor_cancel. unfold n. rewrite Z2Nat.id by lia.
    replace (2 ^ 38 + Z.of_nat j + 64) with (Z.of_nat j + 64 + 1 * 2 ^ 38) by lia. rewrite Z.mod_add by lia. reflexivity.
Qed.
Print Assumptions C23_no_keystream_reuse_refuted.
(** Slices this long exist. *)
Example C23_ex : exists msg, is_slice msg /\ 2 ^ 38 + 1 < len msg.
Proof.
  exists (repeat 0 (Z.to_nat (2 ^ 38 + 2))). unfold is_slice, len. rewrite repeat_length, Z2Nat.id by lia.
  split; [|lia]. split; [|lia]. apply BaseFacts.bytes_repeat. unfold byte_ok. lia.
Qed.

(** ** C24 *)
Theorem C24_panics_exactly : forall b key nonce data msg tag out,
  chacha_key key -> bytes nonce -> is_slice data -> is_slice msg -> len msg <= checked_limit ->
  (ccp_encrypt b key msg nonce data out = Panic <-> length msg <> length out \/ length nonce <> 12%nat) /\
  (ccp_decrypt b key msg nonce data tag out = Panic <-> length msg <> length out \/ length nonce <> 12%nat).
Proof.
  intros b key nonce data msg tag out [Hk Bk] Bn [Bd Ld] [Bm Lm] Hlim.
  destruct (Nat.eq_dec (length msg) (length out)) as [Hl|Hl].
  2:{ rewrite P_Ccp.encrypt_bad_args, P_Ccp.decrypt_bad_args by auto. tauto. }
  destruct (Nat.eq_dec (length nonce) 12) as [Hn|Hn].
  2:{ rewrite P_Ccp.encrypt_bad_args, P_Ccp.decrypt_bad_args by auto. tauto. }
  split; (split; [|intros [|]; contradiction]).
  - destruct (P_Ccp.encrypt_ok key nonce Hk Hn Bk Bn msg data Bm Bd Ld Lm) as (t & _ & _ & _ & _ & E).
    rewrite E by auto. discriminate.
  - destruct (P_Ccp.decrypt_ok key nonce Hk Hn Bk Bn msg data Bm Bd Ld Lm) as (t & _ & _ & _ & D & F).
    destruct (list_eq_dec Z.eq_dec tag t) as [->|Ht]; [rewrite D by auto|rewrite F by auto]; discriminate.
Qed.
Print Assumptions C24_panics_exactly.
(** Above the limit, with overflow checks, [encrypt] panics. *)
Theorem C24_checked_limit_panics : forall key nonce data msg out,
  chacha_key key -> chacha_nonce nonce -> length out = length msg -> checked_limit < len msg ->
  ccp_encrypt Checked key msg nonce data out = Panic.
Proof. intros key nonce data msg out [Hk Bk] [Hn Bn] Ho Hlim. now apply P_Ccp.encrypt_panic. Qed.
Print Assumptions C24_checked_limit_panics.
Example C24_ex : ccp_encrypt Unchecked ex_key [1] ex_nonce [] [0; 0] = Panic /\
  ccp_decrypt Unchecked ex_key [1] [1; 2] [] [] [0] = Panic.
Proof. split; reflexivity. Qed.
