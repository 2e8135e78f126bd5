(** C84, the other AEAD: ChaCha20-Poly1305 does not commit to the key. *)
From Verif Require Import Base M_ChaCha20 M_Poly1305 S_ChaCha T_Ccp T_Forge T_CcpPrivacy S_CcpAuth.
From Verif Require P_CcpCca BaseFacts.

(** The all-zero key, and the key that differs from it in one bit; a ciphertext of one block and a tag. *)
Definition key0 : list Z := repeat 0 32.
Definition key1 : list Z := 1 :: repeat 0 31.
Definition both : attempt := {| a_nonce := repeat 0 12; a_data := [];
  a_ct := [27; 167; 58; 183; 161; 122; 254; 86; 130; 97; 41; 23; 174; 118; 14; 45];
  a_tag := [87; 46; 205; 70; 48; 123; 4; 110; 55; 35; 104; 13; 172; 115; 200; 201] |}.
Definition real (key : list Z) : blocks := fun c nonce => chacha20_block key c nonce.
Lemma both0 : accepted (real key0) both = true.
Proof. vm_compute. reflexivity. Qed.
Lemma both1 : accepted (real key1) both = true.
Proof. vm_compute. reflexivity. Qed.
Lemma both_differ : fst (seal the_mac (real key0) (a_nonce both) (a_data both) (a_ct both)) <> fst (seal the_mac (real key1) (a_nonce both) (a_data both) (a_ct both)).
Proof. intros E. apply (f_equal (fun l => hd 0 l)) in E. vm_compute in E. discriminate E. Qed.
(** There are two keys, a nonce, a ciphertext and a tag that [decrypt] accepts under both keys, giving two different messages. *)
Theorem C84_chacha_not_key_committing : exists key key' nonce ct tag m m', chacha_key key /\ chacha_key key' /\ chacha_nonce nonce /\ m <> m' /\
  forall b out, length out = length ct ->
    ccp_decrypt b key ct nonce [] tag out = Ok (m, true) /\ ccp_decrypt b key' ct nonce [] tag out = Ok (m', true).
Proof.
  assert (K0 : chacha_key key0) by (split; [reflexivity|now apply BaseFacts.bytesb_spec]).
  assert (K1 : chacha_key key1) by (split; [reflexivity|now apply BaseFacts.bytesb_spec]).
  assert (Hn : chacha_nonce (a_nonce both)) by (split; [reflexivity|now apply BaseFacts.bytesb_spec]).
  assert (Hd : is_slice (a_data both)) by (split; [now apply BaseFacts.bytesb_spec|reflexivity]).
  assert (Hc : is_slice (a_ct both)) by (split; [now apply BaseFacts.bytesb_spec|reflexivity]).
  assert (Hl : len (a_ct both) <= checked_limit) by (vm_compute; discriminate).
  exists key0, key1, (a_nonce both), (a_ct both), (a_tag both), (fst (seal the_mac (real key0) (a_nonce both) (a_data both) (a_ct both))),
    (fst (seal the_mac (real key1) (a_nonce both) (a_data both) (a_ct both))).
  split; [exact K0|]. split; [exact K1|]. split; [exact Hn|]. split; [exact both_differ|]. intros b out Ho. change [] with (a_data both).
  rewrite (P_CcpCca.decrypt_open key0 K0 b both out Hn Hd Hc Ho Hl), (P_CcpCca.decrypt_open key1 K1 b both out Hn Hd Hc Ho Hl).
  fold (real key0) (real key1). rewrite both0, both1. split; reflexivity.
Qed.
Print Assumptions C84_chacha_not_key_committing.
