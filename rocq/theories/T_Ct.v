(** Property theorems C71-C78: the trace of branches and array indices does
    not depend on secrets.

    [c_f Zops] is the leakage model of the Rust function modelled by [f]
    (M_Ct*.v); [leak] is its trace, [result] its result.  The theorems
    [.._results] say that the leakage model computes what the model of the
    other properties computes; the theorems [.._trace] say that two calls
    whose arguments have the same lengths leave the same trace, whether they
    return or panic, and that none or both of them panic (for verification and
    decryption: if none or both reject).  When calls panic is the subject of C02-C42. *)
From Coq Require Import String.
From Verif Require Import Base Hex M_Util M_Sha2 M_Hmac M_Hkdf M_ChaCha20 M_Poly1305 M_Aes M_Ghash M_Gcm
  M_Curve25519 M_Ed25519 Hist HistStream M_CtBase M_CtHash M_CtAead M_CtCurve HistCt S_ChaCha.
From Verif Require P_CtBase P_CtHash P_CtAead P_CtCurve P_CtSign P_CtHist T_Hash T_X25519 T_Ed25519.

Definition same_length (l m : list Z) : Prop := length l = length m.

(** The leakage model tells secrets apart when they reach a branch or an index:
    comparing with an early exit, or looking a secret up in a table, leaves a
    trace that depends on it. *)
Fixpoint early_exit (x y : list Z) : M bool :=
  match x, y with
  | a :: x', c :: y' => let* z := w_is_zero Zops (w_xor Zops a c) in if z then early_exit x' y' else ret false
  | _, _ => ret true
  end.
Example leaky_compare : leak (early_exit [1; 2] [1; 3]) <> leak (early_exit [1; 2] [0; 3]) /\
  result (early_exit [1; 2] [1; 3]) = result (early_exit [1; 2] [0; 3]).
Proof. split; [discriminate|reflexivity]. Qed.
Example leaky_lookup : leak (c_idx [10; 20; 30] 1) <> leak (c_idx [10; 20; 30] 2).
Proof. discriminate. Qed.

(** ** C71 *)
Theorem C71_hash_results : forall P alg H, ct_hash P alg H -> forall b message inputs out,
  result (c_hash_wrapper Zops P alg b message) = hash_wrapper H b message /\
  result (c_hash_history Zops P alg b inputs out) =
    (let! s := hash_updates H b (hdefault H) inputs in hwrite_digest H b s out).
Proof.
  intros P alg H HH b m inputs out. rewrite (P_CtHist.ct_hash_impl _ _ _ HH). split; apply P_CtBase.simi_res.
  - apply P_CtHash.sim_hash_wrapper.
  - apply P_CtHist.sim_hash_history.
Qed.
Print Assumptions C71_hash_results.
Theorem C71_hash_trace : forall P alg H, ct_hash P alg H -> forall b m1 m2,
  same_length m1 m2 ->
  leak (c_hash_wrapper Zops P alg b m1) = leak (c_hash_wrapper Zops P alg b m2) /\
  (hash_wrapper H b m1 = Panic <-> hash_wrapper H b m2 = Panic).
Proof.
  intros P alg H HH b m1 m2 Hm.
  rewrite <- (proj1 (C71_hash_results P alg H HH b m1 [] [])), <- (proj1 (C71_hash_results P alg H HH b m2 [] [])).
  exact (P_CtBase.rel_leak _ _ _ (P_CtHash.rel_hash_wrapper P alg b m1 m2 Hm)).
Qed.
Print Assumptions C71_hash_trace.
Theorem C71_hash_streaming_trace : forall P alg H, ct_hash P alg H -> forall b inputs1 inputs2 out1 out2,
  Forall2 same_length inputs1 inputs2 -> same_length out1 out2 ->
  leak (c_hash_history Zops P alg b inputs1 out1) = leak (c_hash_history Zops P alg b inputs2 out2) /\
  ((let! s := hash_updates H b (hdefault H) inputs1 in hwrite_digest H b s out1) = Panic <->
   (let! s := hash_updates H b (hdefault H) inputs2 in hwrite_digest H b s out2) = Panic).
Proof.
  intros P alg H HH b i1 i2 o1 o2 Hi Ho.
  rewrite <- (proj2 (C71_hash_results P alg H HH b [] i1 o1)), <- (proj2 (C71_hash_results P alg H HH b [] i2 o2)).
  exact (P_CtBase.rel_leak _ _ _ (P_CtHist.rel_hash_history P alg b i1 i2 o1 o2 Hi Ho)).
Qed.
Print Assumptions C71_hash_streaming_trace.
Example C71_ex : same_length (s2b "attack at dawn") (s2b "retreat now!!!") /\
  forall b, (exists d, hash_wrapper Sha256 b (s2b "attack at dawn") = Ok d) /\
            (exists d, hash_wrapper Sha256 b (s2b "retreat now!!!") = Ok d).
Proof.
  split; [reflexivity|]. intros b. split; eexists; apply (T_Hash.C02_sha2_oneshot _ _ is_sha256);
    try (apply BaseFacts.bytesb_spec; reflexivity); reflexivity.
Qed.

(** ** C72 *)
Theorem C72_hmac_results : forall P alg H, ct_hash P alg H -> forall b key message inputs tag,
  result (c_hmac_wrapper Zops P alg b key message) = hmac_wrapper H b key message /\
  result (c_hmac_tag_of Zops P alg b key inputs) = hmac_tag_of H b key inputs /\
  result (c_hmac_verify Zops P alg b key message tag) = hmac_verify H b key message tag.
Proof.
  intros P alg H HH b k m l t. rewrite (P_CtHist.ct_hash_impl _ _ _ HH). repeat split; apply P_CtBase.simi_res.
  - apply P_CtHash.sim_hmac_wrapper.
  - apply P_CtHist.sim_hmac_tag_of.
  - apply P_CtHash.sim_hmac_verify.
Qed.
Print Assumptions C72_hmac_results.
Theorem C72_hmac_trace : forall P alg H, ct_hash P alg H -> forall b key1 key2 m1 m2,
  same_length key1 key2 -> same_length m1 m2 ->
  leak (c_hmac_wrapper Zops P alg b key1 m1) = leak (c_hmac_wrapper Zops P alg b key2 m2) /\
  (hmac_wrapper H b key1 m1 = Panic <-> hmac_wrapper H b key2 m2 = Panic).
Proof.
  intros P alg H HH b k1 k2 m1 m2 Hk Hm.
  rewrite <- (proj1 (C72_hmac_results P alg H HH b k1 m1 [] [])), <- (proj1 (C72_hmac_results P alg H HH b k2 m2 [] [])).
  exact (P_CtBase.rel_leak _ _ _ (P_CtHash.rel_hmac_wrapper P alg b k1 k2 m1 m2 Hk Hm)).
Qed.
Print Assumptions C72_hmac_trace.
Theorem C72_hmac_streaming_trace : forall P alg H, ct_hash P alg H -> forall b key1 key2 inputs1 inputs2,
  same_length key1 key2 -> Forall2 same_length inputs1 inputs2 ->
  leak (c_hmac_tag_of Zops P alg b key1 inputs1) = leak (c_hmac_tag_of Zops P alg b key2 inputs2) /\
  (hmac_tag_of H b key1 inputs1 = Panic <-> hmac_tag_of H b key2 inputs2 = Panic).
Proof.
  intros P alg H HH b k1 k2 m1 m2 Hk Hm.
  rewrite <- (proj1 (proj2 (C72_hmac_results P alg H HH b k1 [] m1 []))), <- (proj1 (proj2 (C72_hmac_results P alg H HH b k2 [] m2 []))).
  exact (P_CtBase.rel_leak _ _ _ (P_CtHist.rel_hmac_tag_of P alg b k1 k2 m1 m2 Hk Hm)).
Qed.
Print Assumptions C72_hmac_streaming_trace.
(** Verification discloses whether it rejects and nothing else about key, message and tags: two calls of which
    none or both reject leave the same trace, and none or both panic. *)
Theorem C72_hmac_verify_trace : forall P alg H, ct_hash P alg H -> forall b key1 key2 m1 m2 tag1 tag2,
  same_length key1 key2 -> same_length m1 m2 -> same_length tag1 tag2 ->
  (hmac_verify H b key1 m1 tag1 = Ok false <-> hmac_verify H b key2 m2 tag2 = Ok false) ->
  leak (c_hmac_verify Zops P alg b key1 m1 tag1) = leak (c_hmac_verify Zops P alg b key2 m2 tag2) /\
  (hmac_verify H b key1 m1 tag1 = Panic <-> hmac_verify H b key2 m2 tag2 = Panic).
Proof.
  intros P alg H HH b k1 k2 m1 m2 t1 t2 Hk Hm Ht.
  rewrite <- (proj2 (proj2 (C72_hmac_results P alg H HH b k1 m1 [] t1))), <- (proj2 (proj2 (C72_hmac_results P alg H HH b k2 m2 [] t2))).
  exact (P_CtHist.rel_hmac_verify P alg b k1 k2 m1 m2 t1 t2 Hk Hm Ht).
Qed.
Print Assumptions C72_hmac_verify_trace.
(** Two wrong tags, one wrong in its first byte and one in its last, are not told apart. *)
Example C72_ex : exists t1 t2, t1 <> t2 /\ same_length t1 t2 /\
  hmac_verify Sha256 Checked (s2b "k") (s2b "m") t1 = Ok false /\
  hmac_verify Sha256 Checked (s2b "k") (s2b "m") t2 = Ok false.
Proof. exists (repeat 0 32), (1 :: repeat 0 31). split; [discriminate|]. split; [reflexivity|]. vm_compute. auto. Qed.

(** ** C73 *)
Theorem C73_hkdf_results : forall P alg H, ct_hash P alg H -> forall b salt ikm prk info okm,
  result (c_extract Zops P alg b salt ikm prk) = extract H b salt ikm prk /\
  result (c_expand Zops P alg b prk info okm) = expand H b prk info okm.
Proof.
  intros P alg H HH b s i p n o. rewrite (P_CtHist.ct_hash_impl _ _ _ HH). split; apply P_CtBase.simi_res.
  - apply P_CtHash.sim_extract.
  - apply P_CtHash.sim_expand.
Qed.
Print Assumptions C73_hkdf_results.
Theorem C73_extract_trace : forall P alg H, ct_hash P alg H -> forall b salt1 salt2 ikm1 ikm2 prk1 prk2,
  same_length salt1 salt2 -> same_length ikm1 ikm2 -> same_length prk1 prk2 ->
  leak (c_extract Zops P alg b salt1 ikm1 prk1) = leak (c_extract Zops P alg b salt2 ikm2 prk2) /\
  (extract H b salt1 ikm1 prk1 = Panic <-> extract H b salt2 ikm2 prk2 = Panic).
Proof.
  intros P alg H HH b s1 s2 i1 i2 p1 p2 Hs Hi Hp.
  rewrite <- (proj1 (C73_hkdf_results P alg H HH b s1 i1 p1 [] [])), <- (proj1 (C73_hkdf_results P alg H HH b s2 i2 p2 [] [])).
  exact (P_CtBase.rel_leak _ _ _ (P_CtHash.rel_extract P alg b s1 s2 i1 i2 p1 p2 Hs Hi Hp)).
Qed.
Print Assumptions C73_extract_trace.
Theorem C73_expand_trace : forall P alg H, ct_hash P alg H -> forall b prk1 prk2 info1 info2 okm1 okm2,
  same_length prk1 prk2 -> same_length info1 info2 -> same_length okm1 okm2 ->
  leak (c_expand Zops P alg b prk1 info1 okm1) = leak (c_expand Zops P alg b prk2 info2 okm2) /\
  (expand H b prk1 info1 okm1 = Panic <-> expand H b prk2 info2 okm2 = Panic).
Proof.
  intros P alg H HH b s1 s2 i1 i2 p1 p2 Hs Hi Hp.
  rewrite <- (proj2 (C73_hkdf_results P alg H HH b [] [] s1 i1 p1)), <- (proj2 (C73_hkdf_results P alg H HH b [] [] s2 i2 p2)).
  exact (P_CtBase.rel_leak _ _ _ (P_CtHash.rel_expand P alg b s1 s2 i1 i2 p1 p2 Hs Hi Hp)).
Qed.
Print Assumptions C73_expand_trace.
Example C73_ex : exists o1 o2, expand Sha256 Unchecked (repeat 1 32) [] [0; 0] = Ok o1 /\
  expand Sha256 Unchecked (repeat 2 32) [] [0; 0] = Ok o2.
Proof.
  do 2 eexists. split; rewrite (T_Hash.C10_hkdf_expand_unchecked _ _ is_sha256);
    try (apply BaseFacts.bytesb_spec; reflexivity); reflexivity.
Qed.

(** ** C74 *)
Definition same_shape (o1 o2 : c_op (W := Z)) : Prop :=
  match o1, o2 with
  | CNext, CNext => True
  | CProcess i1 u1, CProcess i2 u2 => same_length i1 i2 /\ same_length u1 u2
  | _, _ => False
  end.
(** The calls and observations of HistStream.v. *)
Definition as_op (o : c_op (W := Z)) : stream_op :=
  match o with CNext => OpNext | CProcess i out => OpEncrypt i out end.
Definition as_out (o : c_out (W := Z)) : stream_out :=
  match o with CByte x => OutByte x | CBuf l => OutBuf l end.
Theorem C74_stream_results : forall b key nonce calls,
  rmap (map as_out) (result (c_stream_history Zops b key nonce calls)) =
    (let! s := stream_new key nonce in let! (outs, s) := run_ops b s (map as_op calls) in Ok outs).
Proof. exact P_CtHist.sim_stream_history. Qed.
Print Assumptions C74_stream_results.
Theorem C74_stream_trace : forall b key1 key2 nonce1 nonce2 calls1 calls2,
  same_length key1 key2 -> same_length nonce1 nonce2 -> Forall2 same_shape calls1 calls2 ->
  leak (c_stream_history Zops b key1 nonce1 calls1) = leak (c_stream_history Zops b key2 nonce2 calls2) /\
  ((let! s := stream_new key1 nonce1 in run_ops b s (map as_op calls1)) = Panic <->
   (let! s := stream_new key2 nonce2 in run_ops b s (map as_op calls2)) = Panic).
Proof.
  intros b k1 k2 n1 n2 l1 l2 Hk Hn Hl.
  assert (Q : forall k n l, (let! s := stream_new k n in run_ops b s (map as_op l)) = Panic <-> result (c_stream_history Zops b k n l) = Panic).
  { intros k n l. pose proof (C74_stream_results b k n l) as E. destruct (stream_new k n) as [s|]; cbn [bind] in *.
    - destruct (run_ops b s (map as_op l)) as [ [xs s']|]; cbn [bind] in *; destruct (result (c_stream_history Zops b k n l)); cbn in E;
        try discriminate E; split; intros ?; (discriminate || reflexivity).
    - destruct (result (c_stream_history Zops b k n l)); cbn in E; [discriminate E|]. split; reflexivity. }
  rewrite (Q k1 n1 l1), (Q k2 n2 l2).
  exact (P_CtBase.rel_leak _ _ _ (P_CtHist.rel_stream_history b k1 k2 n1 n2 l1 l2 Hk Hn Hl)).
Qed.
Print Assumptions C74_stream_trace.
Example C74_ex : Forall2 same_shape [CNext; CProcess [1; 2] [0; 0]] [CNext; CProcess [3; 4] [5; 6]] /\
  exists s o, stream_new (repeat 7 32) (repeat 1 12) = Ok s /\
    run_ops Checked s (map as_op [CNext; CProcess [1; 2] [0; 0]]) = Ok o.
Proof.
  split; [repeat constructor|]. do 2 eexists. split; [reflexivity|]. vm_compute. reflexivity.
Qed.

(** ** C75 *)
Theorem C75_ccp_results : forall b key input nonce data tag output,
  result (c_ccp_encrypt Zops b key input nonce data output) = ccp_encrypt b key input nonce data output /\
  result (c_ccp_decrypt Zops b key input nonce data tag output) = ccp_decrypt b key input nonce data tag output.
Proof.
  intros b k i n d t o. split; apply P_CtBase.simi_res; [apply P_CtAead.sim_ccp_encrypt|apply P_CtAead.sim_ccp_decrypt].
Qed.
Print Assumptions C75_ccp_results.
Theorem C75_ccp_encrypt_trace : forall b key1 key2 m1 m2 nonce1 nonce2 data1 data2 out1 out2,
  chacha_key key1 -> chacha_key key2 -> bytes nonce1 -> bytes nonce2 ->
  is_slice data1 -> is_slice data2 -> is_slice m1 -> is_slice m2 ->
  same_length m1 m2 -> same_length nonce1 nonce2 -> same_length data1 data2 -> same_length out1 out2 ->
  leak (c_ccp_encrypt Zops b key1 m1 nonce1 data1 out1) = leak (c_ccp_encrypt Zops b key2 m2 nonce2 data2 out2) /\
  (ccp_encrypt b key1 m1 nonce1 data1 out1 = Panic <-> ccp_encrypt b key2 m2 nonce2 data2 out2 = Panic).
Proof.
  intros b k1 k2 i1 i2 n1 n2 d1 d2 o1 o2 K1 K2 N1 N2 D1 D2 I1 I2 Hi Hn Hd Ho.
  rewrite <- (proj1 (C75_ccp_results b k1 i1 n1 d1 [] o1)), <- (proj1 (C75_ccp_results b k2 i2 n2 d2 [] o2)).
  apply (P_CtBase.rel_leak _ _ _ (P_CtAead.rel_ccp_encrypt b k1 k2 i1 i2 n1 n2 d1 d2 o1 o2 (eq_trans (proj1 K1) (eq_sym (proj1 K2))) Hi Hn Hd Ho
    (P_CtHist.enc_returns k1 n1 d1 K1 N1 D1 b i1 o1 I1) (P_CtHist.enc_returns k2 n2 d2 K2 N2 D2 b i2 o2 I2))).
Qed.
Print Assumptions C75_ccp_encrypt_trace.
(** Decryption discloses whether it rejects and nothing else. *)
Definition rejects (r : res (list Z * bool)) : Prop := exists out, r = Ok (out, false).
Theorem C75_ccp_decrypt_trace :
  forall b key1 key2 c1 c2 nonce1 nonce2 data1 data2 tag1 tag2 out1 out2,
  chacha_key key1 -> chacha_key key2 -> bytes nonce1 -> bytes nonce2 ->
  is_slice data1 -> is_slice data2 -> is_slice c1 -> is_slice c2 ->
  same_length c1 c2 -> same_length nonce1 nonce2 -> same_length data1 data2 ->
  same_length tag1 tag2 -> same_length out1 out2 ->
  (rejects (ccp_decrypt b key1 c1 nonce1 data1 tag1 out1) <-> rejects (ccp_decrypt b key2 c2 nonce2 data2 tag2 out2)) ->
  leak (c_ccp_decrypt Zops b key1 c1 nonce1 data1 tag1 out1) =
  leak (c_ccp_decrypt Zops b key2 c2 nonce2 data2 tag2 out2) /\
  (ccp_decrypt b key1 c1 nonce1 data1 tag1 out1 = Panic <-> ccp_decrypt b key2 c2 nonce2 data2 tag2 out2 = Panic).
Proof.
  intros b k1 k2 i1 i2 n1 n2 d1 d2 t1 t2 o1 o2 K1 K2 N1 N2 D1 D2 I1 I2 Hi Hn Hd Ht Ho.
  rewrite <- (proj2 (C75_ccp_results b k1 i1 n1 d1 t1 o1)), <- (proj2 (C75_ccp_results b k2 i2 n2 d2 t2 o2)).
  exact (P_CtAead.relv_ccp_decrypt b k1 k2 i1 i2 n1 n2 d1 d2 t1 t2 o1 o2 (eq_trans (proj1 K1) (eq_sym (proj1 K2))) Hi Hn Hd Ht Ho
    (P_CtHist.dec_returns k1 n1 d1 K1 N1 D1 b i1 I1) (P_CtHist.dec_returns k2 n2 d2 K2 N2 D2 b i2 I2)).
Qed.
Print Assumptions C75_ccp_decrypt_trace.
Example C75_ex : ccp_decrypt Checked (repeat 1 32) [5] (repeat 2 12) [] (repeat 0 16) [0] = Ok ([0], false) /\
  ccp_decrypt Checked (repeat 9 32) [6] (repeat 3 12) [] (1 :: repeat 0 15) [0] = Ok ([0], false).
Proof. vm_compute. auto. Qed.

(** ** C76: the key schedule and AES-GCM, for the three key sizes. *)
Example C76_names : Aes128 = impl_cipher 4 /\ Aes192 = impl_cipher 6 /\ Aes256 = impl_cipher 8.
Proof. repeat split. Qed.
Theorem C76_gcm_results : forall NK b key k input nonce data tag output,
  result (c_gcm_new Zops NK key) = gcm_new (impl_cipher NK) key /\
  result (c_gcm_encrypt Zops NK b k input nonce data output) = gcm_encrypt (impl_cipher NK) b k input nonce data output /\
  result (c_gcm_decrypt Zops NK b k input nonce data tag output) = gcm_decrypt (impl_cipher NK) b k input nonce data tag output.
Proof.
  intros NK b key k i n d t o. repeat split; apply P_CtBase.simi_res;
    [apply P_CtAead.sim_key_expansion|apply P_CtAead.sim_gcm_encrypt|apply P_CtAead.sim_gcm_decrypt].
Qed.
Print Assumptions C76_gcm_results.
Theorem C76_gcm_new_trace : forall NK key1 key2, same_length key1 key2 ->
  leak (c_gcm_new Zops NK key1) = leak (c_gcm_new Zops NK key2) /\
  (gcm_new (impl_cipher NK) key1 = Panic <-> gcm_new (impl_cipher NK) key2 = Panic) /\
  (forall k1 k2, gcm_new (impl_cipher NK) key1 = Ok k1 -> gcm_new (impl_cipher NK) key2 = Ok k2 -> same_length k1 k2).
Proof.
  intros NK key1 key2 Hk.
  rewrite <- (proj1 (C76_gcm_results NK Checked key1 [] [] [] [] [] [])), <- (proj1 (C76_gcm_results NK Checked key2 [] [] [] [] [] [])).
  pose proof (P_CtAead.rel_gcm_new NK key1 key2 Hk) as R. destruct (P_CtBase.rel_leak _ _ _ R) as [R1 R2].
  split; [exact R1|]. split; [exact R2|]. intros k1 k2 E1 E2. exact (proj2 (P_CtBase.rel_wrel _ _ _ R k1 k2 E1 E2)).
Qed.
Print Assumptions C76_gcm_new_trace.
Theorem C76_gcm_encrypt_trace : forall NK,
  let E := impl_cipher NK in forall b key1 key2 k1 k2 m1 m2 nonce1 nonce2 data1 data2 out1 out2,
  same_length key1 key2 -> gcm_new E key1 = Ok k1 -> gcm_new E key2 = Ok k2 ->
  same_length m1 m2 -> same_length nonce1 nonce2 -> same_length data1 data2 -> same_length out1 out2 ->
  leak (c_gcm_encrypt Zops NK b k1 m1 nonce1 data1 out1) = leak (c_gcm_encrypt Zops NK b k2 m2 nonce2 data2 out2) /\
  (gcm_encrypt E b k1 m1 nonce1 data1 out1 = Panic <-> gcm_encrypt E b k2 m2 nonce2 data2 out2 = Panic).
Proof.
  intros NK E b key1 key2 k1 k2 i1 i2 n1 n2 d1 d2 o1 o2 Hkey N1 N2 Hi Hn Hd Ho. subst E.
  pose proof (proj2 (proj2 (C76_gcm_new_trace NK key1 key2 Hkey)) k1 k2 N1 N2) as Hk.
  rewrite <- (proj1 (proj2 (C76_gcm_results NK b [] k1 i1 n1 d1 [] o1))), <- (proj1 (proj2 (C76_gcm_results NK b [] k2 i2 n2 d2 [] o2))).
  exact (P_CtBase.rel_leak _ _ _ (P_CtAead.rel_gcm_encrypt NK b k1 k2 i1 i2 n1 n2 d1 d2 o1 o2 Hk Hi Hn Hd Ho)).
Qed.
Print Assumptions C76_gcm_encrypt_trace.
Theorem C76_gcm_decrypt_trace : forall NK,
  let E := impl_cipher NK in forall b key1 key2 k1 k2 c1 c2 nonce1 nonce2 data1 data2 tag1 tag2 out1 out2,
  same_length key1 key2 -> gcm_new E key1 = Ok k1 -> gcm_new E key2 = Ok k2 ->
  same_length c1 c2 -> same_length nonce1 nonce2 -> same_length data1 data2 -> same_length tag1 tag2 ->
  same_length out1 out2 ->
  (rejects (gcm_decrypt E b k1 c1 nonce1 data1 tag1 out1) <-> rejects (gcm_decrypt E b k2 c2 nonce2 data2 tag2 out2)) ->
  leak (c_gcm_decrypt Zops NK b k1 c1 nonce1 data1 tag1 out1) =
  leak (c_gcm_decrypt Zops NK b k2 c2 nonce2 data2 tag2 out2) /\
  (gcm_decrypt E b k1 c1 nonce1 data1 tag1 out1 = Panic <-> gcm_decrypt E b k2 c2 nonce2 data2 tag2 out2 = Panic).
Proof.
  intros NK E b key1 key2 k1 k2 i1 i2 n1 n2 d1 d2 t1 t2 o1 o2 Hkey N1 N2 Hi Hn Hd Ht Ho. subst E.
  pose proof (proj2 (proj2 (C76_gcm_new_trace NK key1 key2 Hkey)) k1 k2 N1 N2) as Hk.
  rewrite <- (proj2 (proj2 (C76_gcm_results NK b [] k1 i1 n1 d1 t1 o1))), <- (proj2 (proj2 (C76_gcm_results NK b [] k2 i2 n2 d2 t2 o2))).
  exact (P_CtAead.relv_gcm_decrypt NK b k1 k2 i1 i2 n1 n2 d1 d2 t1 t2 o1 o2 Hk Hi Hn Hd Ht Ho).
Qed.
Print Assumptions C76_gcm_decrypt_trace.
Example C76_ex : same_length (repeat 1 16) (repeat 9 16) /\
  (let! k := gcm_new Aes128 (repeat 1 16) in gcm_decrypt Aes128 Checked k [] (repeat 2 12) [] (repeat 0 16) []) = Ok ([], false).
Proof. split; [reflexivity|]. vm_compute. reflexivity. Qed.
(** Calls that panic are covered: a message of the wrong length for the output leaves a trace, too. *)
Example C76_ex_panic : (let! k := gcm_new Aes128 (repeat 1 16) in gcm_encrypt Aes128 Checked k [5] (repeat 2 12) [] []) = Panic /\
  leak (c_gcm_encrypt Zops 4 Checked (repeat 0 176) [5] (repeat 2 12) [] []) <> [].
Proof. split; [vm_compute; reflexivity|]. vm_compute. discriminate. Qed.

(** ** C77: no hypothesis on the results, since calls with 32-byte keys never panic (C42). *)
Theorem C77_x25519_results : forall b pk sk,
  result (c_x_dh Zops b pk sk) = x_dh b pk sk /\ result (c_x_gen_pk Zops b sk) = x_gen_pk b sk.
Proof. intros b pk sk. split; apply P_CtBase.simi_res; [apply P_CtCurve.sim_x_dh|apply P_CtCurve.sim_x_gen_pk]. Qed.
Print Assumptions C77_x25519_results.
Theorem C77_dh_trace : forall b pk1 pk2 sk1 sk2,
  length pk1 = 32%nat -> bytes pk1 -> length pk2 = 32%nat -> bytes pk2 ->
  length sk1 = 32%nat -> bytes sk1 -> length sk2 = 32%nat -> bytes sk2 ->
  leak (c_x_dh Zops b pk1 sk1) = leak (c_x_dh Zops b pk2 sk2).
Proof.
  intros b pk1 pk2 sk1 sk2 Lp1 Bp1 Lp2 Bp2 Ls1 Bs1 Ls2 Bs2.
  pose proof (T_X25519.C36_dh_is_x25519 b pk1 sk1 Lp1 Bp1 Ls1 Bs1) as E1.
  pose proof (T_X25519.C36_dh_is_x25519 b pk2 sk2 Lp2 Bp2 Ls2 Bs2) as E2.
  rewrite <- (proj1 (C77_x25519_results b pk1 sk1)) in E1.
  rewrite <- (proj1 (C77_x25519_results b pk2 sk2)) in E2.
  exact (P_CtBase.wrel_leak _ _ _ _ _ (P_CtCurve.wrel_x_dh b pk1 pk2 sk1 sk2
    (eq_trans Lp1 (eq_sym Lp2)) (eq_trans Ls1 (eq_sym Ls2))) E1 E2).
Qed.
Print Assumptions C77_dh_trace.
Theorem C77_gen_pk_trace : forall b sk1 sk2,
  length sk1 = 32%nat -> bytes sk1 -> length sk2 = 32%nat -> bytes sk2 ->
  leak (c_x_gen_pk Zops b sk1) = leak (c_x_gen_pk Zops b sk2).
Proof.
  intros b sk1 sk2 Ls1 Bs1 Ls2 Bs2.
  assert (Hc : length (9 :: repeat 0 31) = 32%nat /\ bytes (9 :: repeat 0 31))
    by (split; [reflexivity|now apply BaseFacts.bytesb_spec]).
  pose proof (T_X25519.C36_dh_is_x25519 b _ sk1 (proj1 Hc) (proj2 Hc) Ls1 Bs1) as E1.
  pose proof (T_X25519.C36_dh_is_x25519 b _ sk2 (proj1 Hc) (proj2 Hc) Ls2 Bs2) as E2.
  rewrite <- (proj1 (C77_x25519_results b _ sk1)) in E1.
  rewrite <- (proj1 (C77_x25519_results b _ sk2)) in E2.
  exact (P_CtBase.wrel_leak _ _ _ _ _ (P_CtCurve.wrel_x_dh b _ _ sk1 sk2
    eq_refl (eq_trans Ls1 (eq_sym Ls2))) E1 E2).
Qed.
Print Assumptions C77_gen_pk_trace.
(** One step of the ladder with an overflow in a limb (a state no valid call reaches) does leave another trace. *)
Example C77_ex : leak (c_fe_add Zops Checked [2 ^ 31 - 1] [1]) <> leak (c_fe_add Zops Checked [0] [1]).
Proof. vm_compute. discriminate. Qed.

(** ** C78 *)
Theorem C78_ed25519_results : forall b message sk,
  result (c_ed_gen_pk Zops b sk) = ed_gen_pk b sk /\
  result (c_ed_sign Zops b message sk) = ed_sign b message sk.
Proof. intros b m sk. split; apply P_CtBase.simi_res; [apply P_CtCurve.sim_ed_gen_pk|apply P_CtCurve.sim_ed_sign]. Qed.
Print Assumptions C78_ed25519_results.
Theorem C78_gen_pk_trace : forall b sk1 sk2,
  length sk1 = 32%nat -> bytes sk1 -> length sk2 = 32%nat -> bytes sk2 ->
  leak (c_ed_gen_pk Zops b sk1) = leak (c_ed_gen_pk Zops b sk2).
Proof.
  intros b sk1 sk2 Ls1 Bs1 Ls2 Bs2.
  exact (P_CtBase.wrel_leak _ _ _ _ _ (P_CtCurve.wrel_ed_gen_pk b sk1 sk2 (eq_trans Ls1 (eq_sym Ls2)))
    (eq_trans (proj1 (C78_ed25519_results b [] sk1)) (T_Ed25519.C45_gen_pk b sk1 Ls1 Bs1))
    (eq_trans (proj1 (C78_ed25519_results b [] sk2)) (T_Ed25519.C45_gen_pk b sk2 Ls2 Bs2))).
Qed.
Print Assumptions C78_gen_pk_trace.
(** For messages of every length; with overflow checks the longest ones make both calls panic, after the same trace. *)
Theorem C78_sign_trace : forall b m1 m2 sk1 sk2,
  length sk1 = 32%nat -> bytes sk1 -> length sk2 = 32%nat -> bytes sk2 ->
  bytes m1 -> bytes m2 -> same_length m1 m2 ->
  leak (c_ed_sign Zops b m1 sk1) = leak (c_ed_sign Zops b m2 sk2) /\
  (ed_sign b m1 sk1 = Panic <-> ed_sign b m2 sk2 = Panic).
Proof.
  intros b m1 m2 sk1 sk2 Ls1 Bs1 Ls2 Bs2 Bm1 Bm2 Hm.
  rewrite <- (proj2 (C78_ed25519_results b m1 sk1)), <- (proj2 (C78_ed25519_results b m2 sk2)).
  exact (P_CtBase.rel_leak _ _ _ (P_CtSign.rel_ed_sign b m1 m2 sk1 sk2 Bm1 Bm2 Hm Bs1 Bs2 Ls1 Ls2)).
Qed.
Print Assumptions C78_sign_trace.
Example C78_ex : length (repeat 1 32) = 32%nat /\ bytes (repeat 1 32) /\ same_length (s2b "yes") (s2b "no!") /\
  rmap (@List.length Z) (result (c_recode Zops Checked 0 (c_nibbles Zops (repeat 255 32)))) = Ok 64%nat.
Proof. repeat split; try (apply BaseFacts.bytesb_spec; reflexivity); vm_compute; reflexivity. Qed.
