(** C85: overflow checks change no result. *)
From Verif Require Import Base M_Util M_Sha2 M_Hmac M_Hkdf M_ChaCha20 M_Poly1305 M_Aes M_Gcm M_Curve25519 M_Ed25519.
From Verif Require P_Mono.

(** A call, as a function of the build mode: with overflow checks it panics, or it does what it does without them (which may be a panic). *)
Definition checks_only_panic {A} (call : build -> res A) : Prop := call Checked = Panic \/ call Checked = call Unchecked.
(** So whatever a checked build returns is what an unchecked build returns, and an unchecked build panics only where a checked one does. *)
Lemma checks_only_panic_meaning {A} (call : build -> res A) : checks_only_panic call <->
  (forall v, call Checked = Ok v -> call Unchecked = Ok v) /\ (call Unchecked = Panic -> call Checked = Panic).
Proof.
  unfold checks_only_panic. split.
  - intros [H|H]; rewrite H; split; try discriminate; intros; assumption || reflexivity.
  - intros [H1 H2]. destruct (call Checked) as [v|]; [|left; reflexivity]. right. symmetry. apply H1. reflexivity.
Qed.
Definition sha2_functions : list HashFunction := [Sha224; Sha256; Sha384; Sha512].
Lemma sha2_mono H : In H sha2_functions -> P_Mono.hmono H.
Proof. intros [<-|[<-|[<-|[<-|[] ] ] ] ]; apply P_Mono.impl_mono. Qed.

(** C85, for all arguments, however long, and all states, reachable or not.  Hashing, HMAC and HKDF: *)
Theorem C85_hash : forall H, In H sha2_functions ->
  (forall m, checks_only_panic (fun b => hash_wrapper H b m)) /\
  (forall s m, checks_only_panic (fun b => hupdate H b s m)) /\
  (forall s out, checks_only_panic (fun b => hwrite_digest H b s out)) /\
  (forall key, checks_only_panic (fun b => hmac_new H b key)) /\
  (forall h m, checks_only_panic (fun b => hmac_update H b h m)) /\
  (forall h, checks_only_panic (fun b => hmac_tag H b h)) /\
  (forall h out, checks_only_panic (fun b => write_tag H b h out)) /\
  (forall key m, checks_only_panic (fun b => hmac_wrapper H b key m)) /\
  (forall key m t, checks_only_panic (fun b => hmac_verify H b key m t)) /\
  (forall salt ikm prk, checks_only_panic (fun b => extract H b salt ikm prk)) /\
  (forall prk info okm, checks_only_panic (fun b => expand H b prk info okm)).
Proof.
  intros H I. apply sha2_mono in I. split; [exact (P_Mono.hash_wrapper_m H I)|]. split; [exact (proj1 I)|]. split; [exact (proj2 I)|].
  split; [exact (P_Mono.hmac_new_m H I)|]. split; [exact (P_Mono.hmac_update_m H I)|]. split; [exact (P_Mono.hmac_tag_m H I)|].
  split; [exact (P_Mono.write_tag_m H I)|]. split; [exact (P_Mono.hmac_wrapper_m H I)|]. split; [exact (P_Mono.hmac_verify_m H I)|].
  split; [exact (P_Mono.extract_m H I)|]. exact (P_Mono.expand_m H I).
Qed.
Print Assumptions C85_hash.
(** ChaCha20 streams, ChaCha20-Poly1305 and GCM with any block cipher: *)
Theorem C85_ciphers :
  (forall s, checks_only_panic (fun b => stream_next b s)) /\
  (forall s input output, checks_only_panic (fun b => stream_process b s input output)) /\
  (forall key input nonce data output, checks_only_panic (fun b => ccp_encrypt b key input nonce data output)) /\
  (forall key input nonce data tag output, checks_only_panic (fun b => ccp_decrypt b key input nonce data tag output)) /\
  (forall E k input nonce data output, checks_only_panic (fun b => gcm_encrypt E b k input nonce data output)) /\
  (forall E k input nonce data tag output, checks_only_panic (fun b => gcm_decrypt E b k input nonce data tag output)).
Proof.
  split; [exact P_Mono.stream_next_m|]. split; [exact P_Mono.stream_process_m|]. split; [exact P_Mono.ccp_encrypt_m|].
  split; [exact P_Mono.ccp_decrypt_m|]. split; [exact P_Mono.gcm_encrypt_m|]. exact P_Mono.gcm_decrypt_m.
Qed.
Print Assumptions C85_ciphers.
(** X25519 and Ed25519: *)
Theorem C85_curve :
  (forall secret_key, checks_only_panic (fun b => x_gen_pk b secret_key)) /\
  (forall public_key secret_key, checks_only_panic (fun b => x_dh b public_key secret_key)) /\
  (forall secret_key, checks_only_panic (fun b => ed_gen_pk b secret_key)) /\
  (forall message secret_key, checks_only_panic (fun b => ed_sign b message secret_key)) /\
  (forall message signature public_key, checks_only_panic (fun b => ed_verify b message signature public_key)).
Proof.
  split; [exact P_Mono.x_gen_pk_m|]. split; [exact P_Mono.x_dh_m|]. split; [exact P_Mono.ed_gen_pk_m|].
  split; [exact P_Mono.ed_sign_m|]. exact P_Mono.ed_verify_m.
Qed.
Print Assumptions C85_curve.
(** Both cases of the disjunction occur with an unchecked build that returns: *)
Example C85_ex :
  let s n := {| st_chacha := repeat 0 16; st_counter := n; st_block := repeat 5 64; st_index := 63 |} in
  let two b n := let! (_, s) := stream_next b (s n) in let! (_, s) := stream_next b s in Ok (st_counter s) in
  two Checked 7 = Ok 8 /\ two Unchecked 7 = Ok 8 /\ two Checked (2 ^ 32 - 1) = Panic /\ two Unchecked (2 ^ 32 - 1) = Ok 0.
Proof. repeat split; vm_compute; reflexivity. Qed.
