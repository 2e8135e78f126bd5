(** Concrete cases that meet the hypotheses of the theorems that have no example beside them. *)
From Coq Require Import String.
From Verif Require Import Base Hex M_Sha2 M_Hmac M_Hkdf M_Aes M_Gcm M_Curve25519 M_Ed25519 S_Sha2 S_Hmac Hist S_Field S_Edwards S_X25519 S_Ed25519 T_Hash T_Gcm.
From Verif Require T_X25519 T_Ed25519 T_EdOrder T_EdSmall P_Hmac P_Ed25519 BaseFacts.
Local Opaque ed_mul ed_add ed_B ed_zero ed_opp ed_encode H512.
Local Ltac okb := now apply BaseFacts.bytesb_spec.

(** C11: 254 blocks of output from a 32-byte key: the documented limit allows it, builds with overflow checks panic. *)
Example C11_ex : exists V, sha2 Sha256 V /\ exists okm okm' : list Z,
  length okm = (254 * 32)%nat /\ length okm' = (253 * 32)%nat /\
  expand Sha256 Checked (repeat 1 32) [5] okm = Panic /\
  expand Sha256 Unchecked (repeat 1 32) [5] okm = Ok (HKDF_Expand_SHA2 V (repeat 1 32) [5] (length okm)) /\
  expand Sha256 Checked (repeat 1 32) [5] okm' = Ok (HKDF_Expand_SHA2 V (repeat 1 32) [5] (length okm')).
Proof.
  exists spec_sha256. assert (HS : sha2 Sha256 spec_sha256) by exact is_sha256. split; [exact HS|].
  assert (H : forall okm : list Z,
    ((length okm < 254 * 32)%nat -> expand Sha256 Checked (repeat 1 32) [5] okm = Ok (HKDF_Expand_SHA2 spec_sha256 (repeat 1 32) [5] (length okm))) /\
    ((254 * 32 <= length okm <= 255 * 32)%nat -> expand Sha256 Checked (repeat 1 32) [5] okm = Panic /\
     expand Sha256 Unchecked (repeat 1 32) [5] okm = Ok (HKDF_Expand_SHA2 spec_sha256 (repeat 1 32) [5] (length okm)))).
  { intros okm. apply (C11_hkdf_expand_checked_exact_limit Sha256 spec_sha256 HS (repeat 1 32) [5] okm); [okb|reflexivity|okb|reflexivity|]. cbn. lia. }
  exists (repeat 0 (254 * 32)), (repeat 0 (253 * 32)). generalize (repeat_length 0 (254 * 32)) (repeat_length 0 (253 * 32)).
  generalize (repeat 0 (254 * 32)) (repeat 0 (253 * 32)). intros x y Lx Ly. split; [exact Lx|]. split; [exact Ly|].
  destruct (H x) as [_ A]. destruct (H y) as [B _].
  assert (Px : (254 * 32 <= length x <= 255 * 32)%nat) by (rewrite Lx; split; apply Nat.mul_le_mono_r; lia).
  assert (Py : (length y < 254 * 32)%nat) by (rewrite Ly; apply Nat.mul_lt_mono_pos_r; lia).
  destruct (A Px) as [A1 A2]. split; [exact A1|]. split; [exact A2|]. exact (B Py).
Qed.

(** C34: a message within the documented limit on which builds with overflow checks panic, and one they encrypt. *)
Example C34_ex : exists k, gcm_new Aes128 ex_key = Ok k /\
  gcm_encrypt Aes128 Checked k [1; 2; 3] ex_nonce [9] [0; 0; 0] <> Panic /\
  exists msg, gcm_message msg /\ gcm_encrypt Aes128 Checked k msg ex_nonce [9] (repeat 0 (length msg)) = Panic.
Proof.
  destruct gcm_new_ok as [k Ek]. pose proof (aes128_cipher k Ek) as HE. exists k. split; [exact Ek|].
  assert (Hn : gcm_nonce ex_nonce) by ok_bytes.
  assert (Hd : gcm_data [9]) by (split; [okb|reflexivity]). split.
  - apply (C34_exact_limit_partial Aes128 k HE ex_nonce [9] [1; 2; 3] [0; 0; 0] Hn Hd); [okb|reflexivity|discriminate].
  - destruct (C34_checked_limit_refuted Aes128 k HE ex_nonce [9] Hn Hd) as (msg & Hm & H). exists msg. split; [exact Hm|].
    apply H. apply repeat_length.
Qed.

Local Notation sk7 := (repeat 7 32).
Local Notation sk8 := (repeat 8 32).
Lemma sk7_ok : length sk7 = 32%nat /\ bytes sk7. Proof. split; [reflexivity|okb]. Qed.
Lemma sk8_ok : length sk8 = 32%nat /\ bytes sk8. Proof. split; [reflexivity|okb]. Qed.

Example C41_ex : x_dh Checked sk8 sk7 = x_dh Unchecked sk8 sk7 /\ ed_sign Checked [1; 2] sk7 = ed_sign Unchecked [1; 2] sk7 /\
  ed_verify Checked [1; 2] [3] sk8 = ed_verify Unchecked [1; 2] [3] sk8.
Proof.
  assert (B3 : bytes [3]) by okb. assert (Bm : bytes [1; 2]) by okb.
  destruct (T_X25519.C41_x25519_builds_agree sk8 sk7 (proj2 sk8_ok) (proj2 sk7_ok)) as [X _]. split; [exact X|].
  destruct (T_Ed25519.C41_ed25519_builds_agree [1; 2] [3] sk8 sk7 Bm eq_refl B3 (proj2 sk8_ok) (proj2 sk7_ok)) as (_ & S & V).
  split; [exact S|exact V].
Qed.
Example C45_ex : ed_gen_pk Checked sk7 = Ok (rfc_public_key sk7).
Proof. apply T_Ed25519.C45_gen_pk; apply sk7_ok. Qed.
(** C47 and the hypotheses of C57, C58 and C59: a key, its public key, and two signatures by it that are accepted. *)
Example C47_ex : exists sig sig' pk, ed_gen_pk Checked sk7 = Ok pk /\ ed_sign Checked [1] sk7 = Ok sig /\ ed_sign Unchecked [] sk7 = Ok sig' /\
  ed_verify Checked [1] sig pk = Ok true /\ ed_verify Unchecked [] sig' pk = Ok true.
Proof.
  destruct (T_Ed25519.C47_sign_verify Checked Checked Checked [1] sk7) as (sig & pk & S & P & V); [apply sk7_ok|apply sk7_ok|okb|reflexivity|].
  destruct (T_Ed25519.C47_sign_verify Unchecked Checked Unchecked [] sk7) as (sig' & pk' & S' & P' & V'); [apply sk7_ok|apply sk7_ok|okb|reflexivity|].
  rewrite P in P'. apply T_EdOrder.ok_inj in P'. subst pk'. exists sig, sig', pk. auto.
Qed.
(** C57: [sig] is accepted for the message. (Two different messages with one signature would need equal challenges: that is what C57 says.) *)
Example C57_ex : exists sig pk, ed_gen_pk Checked sk7 = Ok pk /\ bytes sig /\
  ed_verify Checked [1] sig pk = Ok true /\ ed_verify Unchecked [1] sig pk = Ok true.
Proof.
  destruct (T_Ed25519.C47_sign_verify Checked Checked Checked [1] sk7) as (sig & pk & S & P & V); [apply sk7_ok|apply sk7_ok|okb|reflexivity|].
  destruct (T_Ed25519.C47_sign_verify Checked Checked Unchecked [1] sk7) as (sig' & pk' & S' & P' & V'); [apply sk7_ok|apply sk7_ok|okb|reflexivity|].
  rewrite P in P'. apply T_EdOrder.ok_inj in P'. rewrite S in S'. apply T_EdOrder.ok_inj in S'. subst pk' sig'.
  exists sig, pk. split; [exact P|]. split; [|split; assumption].
  apply (T_Ed25519.C46_sign_form Checked [1] sk7 sig (proj1 sk7_ok) (proj2 sk7_ok)); [okb|reflexivity|exact S].
Qed.
(** C49: an accepted signature with S + L below 2^253 (S = 5, for the key that is the neutral element). *)
Example C49_ex : exists sig, bytes sig /\ ed_verify Checked [1] sig (le_encode 32 1) = Ok true /\ le_decode (skipn 32 sig) + L < 2 ^ 253.
Proof.
  exists (ed_encode (ed_mul 5 ed_B) ++ le_encode 32 5).
  split; [apply BaseFacts.bytes_app; split; [apply P_Ed25519.enc_bytes|apply BaseFacts.le_encode_bytes]|].
  split; [apply T_EdSmall.C83_neutral_key_accepts; [now left|okb|reflexivity|lia]|].
  rewrite (P_Ed25519.skipn_app_eq 32 _ _ (P_Ed25519.enc_length _)). reflexivity.
Qed.
(** C50: both strings of [C50_refuted] are accepted, and are of the kinds [C50_accepted_keys_partial] lists. *)
Example C50_ex : let sig := ((1 :: repeat 0 31) ++ repeat 0 32)%list in
  ed_verify Checked [1] sig (le_encode 32 (2 ^ 255 + 1)) = Ok true /\ ed_verify Checked [1] sig (le_encode 32 (p + 1)) = Ok true /\
  le_decode (le_encode 32 (2 ^ 255 + 1)) = 2 ^ 255 + 1 /\ p <= le_decode (le_encode 32 (p + 1)) mod 2 ^ 255 < 2 ^ 255.
Proof.
  cbv zeta. destruct (T_Ed25519.C50_refuted Checked) as (_ & _ & H). destruct (H [1]) as [A B]; [okb|reflexivity|].
  split; [exact A|]. split; [exact B|]. split; [reflexivity|]. vm_compute. split; [discriminate|reflexivity].
Qed.
(** C56: two secret keys with different public keys. *)
Example C56_ex : exists pk1 pk2, x_gen_pk Checked sk7 = Ok pk1 /\ x_gen_pk Unchecked sk8 = Ok pk2 /\ pk1 <> pk2.
Proof.
  destruct (T_X25519.C37_gen_pk Checked sk7 (9 :: repeat 0 31) eq_refl ltac:(okb) eq_refl) as [_ E1].
  destruct (T_X25519.C37_gen_pk Unchecked sk8 (9 :: repeat 0 31) eq_refl ltac:(okb) eq_refl) as [_ E2].
  specialize (E1 (proj1 sk7_ok) (proj2 sk7_ok)). specialize (E2 (proj1 sk8_ok) (proj2 sk8_ok)).
  eexists; eexists. split; [exact E1|]. split; [exact E2|]. intros E.
  assert (G : x_gen_pk Checked sk7 = x_gen_pk Unchecked sk8) by (rewrite E1, E2, E; exact eq_refl).
  apply (T_EdOrder.C54_x25519_public_keys Checked Unchecked sk7 sk8 (proj1 sk7_ok) (proj2 sk7_ok) (proj1 sk8_ok) (proj2 sk8_ok)) in G.
  clear - G. destruct G as [G|G]; vm_compute in G; discriminate G.
Qed.
