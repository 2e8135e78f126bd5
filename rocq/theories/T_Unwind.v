(** Property theorems C79-C82: panics that are caught, and calls stopped half way.
    [moment r out buf]: at some moment of the run [r] the caller's buffer, which held [out], holds [buf]. *)
From Coq Require Import String.
From Verif Require Import Base Hex M_Sha2 M_Hmac M_Hkdf M_ChaCha20 M_Poly1305 M_Aes M_Ghash M_Gcm M_Unwind.
From Verif Require Import S_Sha2 S_Hmac S_ChaCha Hist HistStream HistUnwind.
From Verif Require P_Unwind P_Unwind2 P_Unwind3 P_Unwind4 P_Ccp P_Stream P_Hmac P_Sha2Stream BaseFacts T_Gcm.
From Coq Require Import ZifyBool ZifyNat.

(** ** C79 A ChaCha20 stream after panics

    The user catches every panic and goes on with the same stream and any buffers. *)
Theorem C79_stream_after_panics : forall key nonce, length key = 32%nat -> length nonce = 12%nat -> bytes key -> bytes nonce ->
  exists s0, stream_new key nonce = Ok s0 /\
  forall ops,
    u_run_ops Checked s0 ops = expect_seens (keystream_byte key nonce) (2 ^ 38) 0 ops /\
    (* without overflow checks the keystream repeats and never ends *)
    forall limit, ops_size ops <= limit ->
      u_run_ops Unchecked s0 ops = expect_seens (fun n => keystream_byte key nonce (n mod 2 ^ 38)) limit 0 ops.
Proof.
  intros key nonce Hk Hn Bk Bn. destruct (P_Unwind2.stream_seen_checked key nonce Hk Hn Bk Bn []) as (s0 & E & _).
  exists s0. split; [exact E|]. intros ops. split.
  - destruct (P_Unwind2.stream_seen_checked key nonce Hk Hn Bk Bn ops) as (s1 & E1 & H). congruence.
  - intros limit Hl. destruct (P_Unwind2.stream_seen_unchecked key nonce Hk Hn Bk Bn ops limit Hl) as (s1 & E1 & H). congruence.
Qed.
Print Assumptions C79_stream_after_panics.

(** What a stream does once it has run out. *)
Definition after_end (o : stream_op) : seen :=
  match o with
  | OpNext => Panicked []
  | OpEncrypt i out | OpDecrypt i out =>
      match i, out with [], [] => Returned (OutBuf []) | _, _ => Panicked out end
  end.
Fixpoint pos_after (limit n : Z) (ops : list stream_op) : Z :=
  match ops with [] => n | o :: ops' => pos_after limit (snd (expect_seen (fun _ => 0) limit n o)) ops' end.
Lemma pos_any f g limit n o : snd (expect_seen f limit n o) = snd (expect_seen g limit n o).
Proof.
  destruct o as [|i out|i out]; cbn [expect_seen].
  - now destruct (n <? limit).
  - destruct (negb _); [reflexivity|]. now destruct (_ <=? limit).
  - destruct (negb _); [reflexivity|]. now destruct (_ <=? limit).
Qed.
Lemma expect_app f limit ops1 : forall n ops2,
  expect_seens f limit n (ops1 ++ ops2) = (expect_seens f limit n ops1 ++ expect_seens f limit (pos_after limit n ops1) ops2)%list.
Proof.
  induction ops1 as [|o ops1 IH]; intros n ops2; [reflexivity|]. cbn [app expect_seens pos_after].
  rewrite (pos_any (fun _ => 0) f). destruct (expect_seen f limit n o) as [x n']. cbn [snd app]. now rewrite IH.
Qed.
Lemma expect_length f limit ops : forall n, length (expect_seens f limit n ops) = length ops.
Proof.
  induction ops as [|o ops IH]; intros n; [reflexivity|]. cbn [expect_seens]. destruct (expect_seen f limit n o). cbn [length]. now rewrite IH.
Qed.
Lemma expect_end f limit ops : expect_seens f limit limit ops = map after_end ops.
Proof.
  assert (G : forall i out, expect_seen f limit limit (OpEncrypt i out) = (after_end (OpEncrypt i out), limit)).
  { intros i out. cbn [expect_seen after_end]. rewrite Z.sub_diag. cbn [Z.to_nat firstn skipn app].
    destruct i as [|x i], out as [|y out]; cbn [length Nat.eqb negb].
    - rewrite BaseFacts.len_nil, Z.add_0_r, Z.leb_refl. reflexivity.
    - reflexivity.
    - reflexivity.
    - destruct (length i =? length out)%nat; [|reflexivity]. cbn [negb].
      rewrite BaseFacts.len_cons. pose proof (BaseFacts.len_nonneg i).
      destruct (Z.leb_spec (limit + (1 + len i)) limit); [lia|reflexivity]. }
  induction ops as [|o ops IH]; [reflexivity|]. cbn [expect_seens map].
  assert (E : expect_seen f limit limit o = (after_end o, limit)).
  { destruct o as [|i out|i out]; [|exact (G i out)|exact (G i out)]. cbn [expect_seen]. now rewrite Z.ltb_irrefl. }
  rewrite E, IH. reflexivity.
Qed.

(** After a call with buffers of equal lengths has panicked, nothing is ever encrypted again:
    every later call panics and leaves its buffer alone (the empty encryption returns). *)
Theorem C79_exhausted_for_good : forall key nonce, length key = 32%nat -> length nonce = 12%nat -> bytes key -> bytes nonce ->
  forall s0, stream_new key nonce = Ok s0 -> forall before o after buf,
  match o with OpNext => True | OpEncrypt i out | OpDecrypt i out => length i = length out end ->
  nth_error (u_run_ops Checked s0 (before ++ o :: after)) (length before) = Some (Panicked buf) ->
  skipn (S (length before)) (u_run_ops Checked s0 (before ++ o :: after)) = map after_end after.
Proof.
  intros key nonce Hk Hn Bk Bn s0 E0 before o after buf Ho Hp.
  destruct (C79_stream_after_panics key nonce Hk Hn Bk Bn) as (s1 & E1 & H). assert (s1 = s0) by congruence. subst s1.
  rewrite (proj1 (H _)) in *. clear H. set (f := keystream_byte key nonce) in *. revert Hp.
  rewrite expect_app. set (A := expect_seens f (2 ^ 38) 0 before). assert (LA : length A = length before) by apply expect_length.
  set (n := pos_after (2 ^ 38) 0 before). rewrite nth_error_app2 by lia. rewrite LA, Nat.sub_diag.
  rewrite skipn_app, (skipn_all2 A), LA by lia. replace (S (length before) - length before)%nat with 1%nat by lia.
  cbn [expect_seens app]. destruct (expect_seen f (2 ^ 38) n o) as [x n'] eqn:Ex. cbn [nth_error skipn]. intros Hx.
  assert (Hx' : x = Panicked buf) by congruence. clear Hx. subst x.
  assert (G : forall i out, length i = length out -> expect_seen f (2 ^ 38) n (OpEncrypt i out) = (Panicked buf, n') -> n' = 2 ^ 38).
  { intros i out Hl. cbn [expect_seen]. rewrite (proj2 (Nat.eqb_eq _ _)) by assumption. cbn [negb].
    destruct (n + len i <=? 2 ^ 38); intros Hx; congruence. }
  assert (Hcase : n' = 2 ^ 38 \/ (2 ^ 38 <= n /\ n' = n)).
  { destruct o as [|i out|i out]; [|left; exact (G i out Ho Ex)|left; exact (G i out Ho Ex)].
    cbn [expect_seen] in Ex. destruct (Z.ltb_spec n (2 ^ 38)); [congruence|right; split; [lia|congruence]]. }
  assert (Hle : 0 <= n <= 2 ^ 38).
  { unfold n. clear. assert (X : forall ops m, 0 <= m <= 2 ^ 38 -> 0 <= pos_after (2 ^ 38) m ops <= 2 ^ 38); [|apply X; lia].
    induction ops as [|o ops IH]; intros m Hm; [exact Hm|]. cbn [pos_after]. apply IH.
    destruct o as [|i out|i out]; cbn [expect_seen].
    - destruct (Z.ltb_spec m (2 ^ 38)); cbn [snd]; lia.
    - pose proof (BaseFacts.len_nonneg i). destruct (negb _); cbn [snd]; [lia|]. destruct (Z.leb_spec (m + len i) (2 ^ 38)); cbn [snd]; lia.
    - pose proof (BaseFacts.len_nonneg i). destruct (negb _); cbn [snd]; [lia|]. destruct (Z.leb_spec (m + len i) (2 ^ 38)); cbn [snd]; lia. }
  assert (En : n' = 2 ^ 38) by lia. rewrite En. apply expect_end.
Qed.
Print Assumptions C79_exhausted_for_good.
(** The spec on a keystream of 3 bytes; such a history exists for the real limit as well. *)
Example C79_ex : expect_seens (fun n => n) 3 0
    [OpEncrypt [16; 16] [7; 7]; OpEncrypt [32] []; OpDecrypt [64; 64] [9; 9]; OpNext; OpEncrypt [] []] =
  [Returned (OutBuf [16; 17]); Panicked []; Panicked [66; 9]; Panicked []; Returned (OutBuf [])].
Proof. reflexivity. Qed.
Example C79_ex2 : forall key nonce, length key = 32%nat -> length nonce = 12%nat -> bytes key -> bytes nonce ->
  let m := repeat 0 (Z.to_nat (2 ^ 38 + 1)) in
  forall s0, stream_new key nonce = Ok s0 ->
  exists buf, nth_error (u_run_ops Checked s0 ([OpNext] ++ OpEncrypt m m :: [OpNext])) 1 = Some (Panicked buf).
Proof.
  intros key nonce Hk Hn Bk Bn m s0 E0.
  destruct (C79_stream_after_panics key nonce Hk Hn Bk Bn) as (s1 & E1 & H). assert (s1 = s0) by congruence. subst s1.
  rewrite (proj1 (H _)). assert (L : len m = 2 ^ 38 + 1) by (unfold len, m; rewrite repeat_length, Z2Nat.id by lia; reflexivity).
  clearbody m. cbn [app expect_seens expect_seen]. change (0 <? 2 ^ 38) with true. rewrite Nat.eqb_refl. cbn [negb].
  rewrite L. change (0 + 1 + (2 ^ 38 + 1) <=? 2 ^ 38) with false. eexists. reflexivity.
Qed.

(** ** C80 Decryption writes authentic plaintext only, at every moment *)
Theorem C80_chacha20_poly1305 : forall b key ct nonce data tag out buf,
  length key = 32%nat -> bytes key -> bytes nonce -> bytes ct -> bytes data -> len data < 2 ^ 64 -> len ct < 2 ^ 64 ->
  moment (u_ccp_decrypt b key ct nonce data tag tt out) out buf ->
  buf = out \/
  exists msg k, (forall out', length out' = length msg -> ccp_encrypt Unchecked key msg nonce data out' = Ok (ct, tag)) /\
    length msg = length out /\ buf = (firstn k msg ++ skipn k out)%list.
Proof. intros. eapply P_Unwind3.ccp_decrypt_moment; eassumption. Qed.
Print Assumptions C80_chacha20_poly1305.
Theorem C80_gcm : forall E k, T_Gcm.block_cipher E k -> forall b ct nonce data tag out buf,
  bytes nonce -> bytes ct -> bytes data ->
  moment (u_gcm_decrypt E b k ct nonce data tag tt out) out buf ->
  buf = out \/
  exists msg n, (forall out', length out' = length msg -> gcm_encrypt E Unchecked k msg nonce data out' = Ok (ct, tag)) /\
    length msg = length out /\ buf = (firstn n msg ++ skipn n out)%list.
Proof. intros E k HE b ct nonce data tag out buf. exact (P_Unwind3.gcm_decrypt_moment E k HE b ct nonce data tag out buf). Qed.
Print Assumptions C80_gcm.
(** The runs are those of the functions of C12-C35: same result, same final buffer, which is the last moment. *)
Theorem C80_same_runs : forall b data tag out,
  (forall key ct nonce, let r := u_ccp_decrypt b key ct nonce data tag tt out in
     match outcome r with Ok v => Ok (out_after r, v) | Panic => Panic end = ccp_decrypt b key ct nonce data tag out /\
     moment r out (out_after r)) /\
  (forall E k ct nonce, let r := u_gcm_decrypt E b k ct nonce data tag tt out in
     match outcome r with Ok v => Ok (out_after r, v) | Panic => Panic end = gcm_decrypt E b k ct nonce data tag out /\
     moment r out (out_after r)).
Proof.
  intros b data tag out. split; intros; (split; [|apply P_Unwind3.moment_end]).
  - exact (P_Unwind2.sim_ccp_decrypt b key ct nonce data tag out).
  - apply P_Unwind.honest_ccp_decrypt.
  - exact (P_Unwind2.sim_gcm_decrypt E b k ct nonce data tag out).
  - apply P_Unwind.honest_gcm_decrypt.
Qed.
Print Assumptions C80_same_runs.
(** So, under a wrong tag or with refused arguments, the buffer is never touched. *)
Example C80_ex : forall b key ct nonce data tag out buf,
  length key = 32%nat -> bytes key -> bytes nonce -> bytes ct -> bytes data -> len data < 2 ^ 64 -> len ct < 2 ^ 64 ->
  (forall msg out', ccp_encrypt Unchecked key msg nonce data out' <> Ok (ct, tag)) ->
  moment (u_ccp_decrypt b key ct nonce data tag tt out) out buf -> buf = out.
Proof.
  intros b key ct nonce data tag out buf Hk Bk Bn Bc Bd Ld Lc Hno M.
  destruct (C80_chacha20_poly1305 b key ct nonce data tag out buf Hk Bk Bn Bc Bd Ld Lc M) as [->|(msg & k & H & _)]; [reflexivity|].
  destruct (Hno msg msg (H msg eq_refl)).
Qed.

(** ** C81 Encryption writes ciphertext only, at every moment; what is left by an overflow panic

    [c]: the ciphertext, as a build without overflow checks computes it. *)
Theorem C81_chacha20_poly1305 : forall b key msg nonce data out,
  length key = 32%nat -> bytes key -> bytes nonce -> bytes msg -> bytes data -> len data < 2 ^ 64 -> len msg < 2 ^ 64 ->
  let r := u_ccp_encrypt b key msg nonce data tt out in
  (ccp_encrypt Unchecked key msg nonce data out = Panic -> forall buf, moment r out buf -> buf = out) /\
  (forall c t, ccp_encrypt Unchecked key msg nonce data out = Ok (c, t) -> length c = length out /\
     (forall buf, moment r out buf -> exists k, buf = (firstn k c ++ skipn k out)%list) /\
     (b = Checked -> 2 ^ 38 - 192 < len msg -> outcome r = Panic /\
        out_after r = (firstn (Z.to_nat (2 ^ 38 - 128)) c ++ skipn (Z.to_nat (2 ^ 38 - 128)) out)%list)).
Proof.
  intros b key msg nonce data out Hk Bk Bn Bm Bd Ld Lm. cbv zeta.
  destruct (P_Unwind3.ccp_encrypt_moment b key msg nonce data out Hk Bk Bn Bm Bd Ld Lm) as [H1 H2].
  split; [exact H1|]. intros c t E. destruct (H2 c t E) as (L & M & P). split; [exact L|]. split; [|exact P].
  intros buf Hb. apply M in Hb. destruct Hb as (k & _ & Hb). eauto.
Qed.
Print Assumptions C81_chacha20_poly1305.
Theorem C81_gcm : forall E k, T_Gcm.block_cipher E k -> forall b msg nonce data out,
  bytes nonce -> bytes msg -> bytes data ->
  let r := u_gcm_encrypt E b k msg nonce data tt out in
  (gcm_encrypt E Unchecked k msg nonce data out = Panic -> forall buf, moment r out buf -> buf = out) /\
  (forall c t, gcm_encrypt E Unchecked k msg nonce data out = Ok (c, t) -> length c = length out /\
     (forall buf, moment r out buf -> exists n, buf = (firstn n c ++ skipn n out)%list) /\
     (b = Checked -> 2 ^ 36 - 64 < len msg -> outcome r = Panic /\
        out_after r = (firstn (Z.to_nat (2 ^ 36 - 48)) c ++ skipn (Z.to_nat (2 ^ 36 - 48)) out)%list)).
Proof.
  intros E k HE b msg nonce data out Bn Bm Bd. cbv zeta.
  destruct (P_Unwind3.gcm_encrypt_moment E k HE b msg nonce data out Bn Bm Bd) as [H1 H2].
  split; [exact H1|]. intros c t Ee. destruct (H2 c t Ee) as (L & M & P). split; [exact L|]. split; [|exact P].
  intros buf Hb. apply M in Hb. destruct Hb as (n & _ & Hb). eauto.
Qed.
Print Assumptions C81_gcm.
Theorem C81_same_runs : forall b data out,
  (forall key msg nonce, let r := u_ccp_encrypt b key msg nonce data tt out in
     match outcome r with Ok t => Ok (out_after r, t) | Panic => Panic end = ccp_encrypt b key msg nonce data out /\
     moment r out (out_after r)) /\
  (forall E k msg nonce, let r := u_gcm_encrypt E b k msg nonce data tt out in
     match outcome r with Ok t => Ok (out_after r, t) | Panic => Panic end = gcm_encrypt E b k msg nonce data out /\
     moment r out (out_after r)).
Proof.
  intros b data out. split; intros; (split; [|apply P_Unwind3.moment_end]).
  - exact (P_Unwind2.sim_ccp_encrypt b key msg nonce data out).
  - apply P_Unwind.honest_ccp_encrypt.
  - exact (P_Unwind2.sim_gcm_encrypt E b k msg nonce data out).
  - apply P_Unwind.honest_gcm_encrypt.
Qed.
Print Assumptions C81_same_runs.
(** A message just too long for a build with overflow checks: encryption panics when all of it is encrypted. *)
Example C81_ex : forall key nonce, length key = 32%nat -> length nonce = 12%nat -> bytes key -> bytes nonce ->
  let msg := repeat 0 (Z.to_nat (2 ^ 38 - 191)) in let r := u_ccp_encrypt Checked key msg nonce [] tt msg in
  exists c t, ccp_encrypt Unchecked key msg nonce [] msg = Ok (c, t) /\ outcome r = Panic /\ out_after r = c.
Proof.
  intros key nonce Hk Hn Bk Bn msg r.
  assert (L : len msg = 2 ^ 38 - 191) by (unfold len, msg; rewrite repeat_length, Z2Nat.id by lia; reflexivity).
  assert (Bm : bytes msg) by (apply BaseFacts.bytes_repeat; unfold byte_ok; lia). clearbody msg. subst r.
  destruct (C81_chacha20_poly1305 Checked key msg nonce [] msg Hk Bk Bn Bm) as [_ H]; [constructor|reflexivity|lia|].
  destruct (P_Ccp.encrypt_ok key nonce Hk Hn Bk Bn msg [] Bm) as (t & _ & _ & _ & _ & Ee); [constructor|reflexivity|lia|].
  specialize (Ee Unchecked msg eq_refl (or_introl eq_refl)).
  destruct (H _ _ Ee) as (Lc & _ & P). destruct (P eq_refl) as [P1 P2]; [lia|].
  eexists _, t. split; [exact Ee|]. split; [exact P1|]. rewrite P2. unfold len in L.
  rewrite firstn_all2 by lia. rewrite skipn_all2 by lia. apply app_nil_r.
Qed.

(** ** C82 Digests, tags and derived keys *)
Definition hash_instance (P : sha_params) (alg : algorithm) (V : variant) : Prop :=
  In (P, alg, V) [(P512, SHA512, spec_sha512); (P512, SHA384, spec_sha384); (P256, SHA256, spec_sha256); (P256, SHA224, spec_sha224)].
Lemma instance_sha2 P alg V : hash_instance P alg V -> sha2 (impl_function P alg) V.
Proof.
  unfold hash_instance. intros [H|[H|[H|[H|[] ] ] ] ]; injection H as <- <- <-; constructor.
Qed.

(** [write_digest]: the buffer goes from left to right to the digest; with a wrong length it is not touched. *)
Theorem C82_write_digest : forall P alg V, hash_instance P alg V -> let H := impl_function P alg in
  forall b inputs s out, Forall bytes inputs -> len (concat inputs) < 2 ^ 61 -> hash_updates H b (hdefault H) inputs = Ok s ->
  let r := u_write_digest P alg b s tt out in
  let d := SHA V (concat inputs) in
  if (length out =? DIGEST_SIZE H)%nat
  then outcome r = Ok tt /\ out_after r = d /\ forall buf, moment r out buf -> exists k, buf = (firstn k d ++ skipn k out)%list
  else outcome r = Panic /\ forall buf, moment r out buf -> buf = out.
Proof.
  intros P alg V HI. pose proof (instance_sha2 P alg V HI) as HV. cbv zeta. intros b inputs s out Bi Li Hs.
  destruct (P_Sha2Stream.sha2_contract _ _ HV) as [R C].
  destruct (P_Sha2Stream.hc_updates _ _ _ C b inputs _ [] (P_Sha2Stream.hc_default _ _ _ C) Bi) as (s' & E & Hs').
  { right. rewrite BaseFacts.len_nil. lia. }
  assert (Es : s = s') by congruence. subst s'. cbn [app] in Hs'.
  pose proof (P_Sha2Stream.hc_write _ _ _ C b s _ out Hs' ltac:(right; assumption)) as W.
  rewrite P_Sha2Stream.SHA_eq in W by assumption.
  pose proof (P_Unwind4.write_digest_run P alg b s out) as Rn. pose proof (P_Unwind4.write_digest_same P alg b s out) as Rl.
  rewrite W in Rn, Rl. rewrite (P_Sha2Stream.hc_ds _ _ _ C).
  destruct (length out =? digest_bytes V)%nat; rewrite Rn.
  - split; [reflexivity|]. split; [reflexivity|]. specialize (Rl _ eq_refl). now apply P_Unwind3.moment_wr.
  - split; [reflexivity|]. apply P_Unwind3.moment_none. reflexivity.
Qed.
Print Assumptions C82_write_digest.

(** [write_tag]: the caller's buffer first takes the inner digest, then the tag.  (So a caller who can see the
    buffer during the call sees the inner digest, which HMAC otherwise keeps secret.) *)
Theorem C82_write_tag : forall P alg V, hash_instance P alg V -> let H := impl_function P alg in
  forall b key inputs h out, bytes key -> len key < 2 ^ 61 -> Forall bytes inputs ->
  Z.of_nat (BLOCK_SIZE H) + len (concat inputs) < 2 ^ 61 ->
  (let! h := hmac_new H b key in hmac_updates H b h inputs) = Ok h ->
  let r := u_write_tag P alg b h tt out in
  let msg := concat inputs in
  let d := SHA V (xorl (hmac_key (SHA V) (block_bytes V) key) (ipad (block_bytes V)) ++ msg) in
  let t := HMAC_SHA2 V key msg in
  if (length out =? DIGEST_SIZE H)%nat
  then outcome r = Ok tt /\ out_after r = t /\
    forall buf, moment r out buf <-> (exists k, buf = (firstn k d ++ skipn k out)%list) \/ (exists k, buf = (firstn k t ++ skipn k d)%list)
  else outcome r = Panic /\ forall buf, moment r out buf -> buf = out.
Proof.
  intros P alg V HI. pose proof (instance_sha2 P alg V HI) as HV. cbv zeta. intros b key inputs h out Bk Lk Bi Li Hh.
  rewrite (P_Hmac.block_size_eq _ V HV) in Li. destruct (P_Sha2Stream.sha2_contract _ _ HV) as [R C].
  destruct (P_Hmac.new_updates _ V R C b key inputs Bk Lk Bi Li) as (h' & E & Rh). assert (Eh : h = h') by congruence. subst h'.
  pose proof (P_Hmac.write_tag_eq _ V R C b h key (concat inputs) out Bk Lk (BaseFacts.bytes_concat _ Bi) Rh Li) as W.
  pose proof (P_Unwind4.write_tag_run P alg b h out) as Rn. cbv zeta in Rn. unfold write_tag in W.
  change (DIGEST_SIZE (impl_function P alg)) with (digest_size alg) in W.
  assert (Eds : digest_size alg = digest_bytes V) by exact (P_Sha2Stream.hc_ds _ _ _ C).
  change (DIGEST_SIZE (impl_function P alg)) with (digest_size alg). rewrite Nat.eqb_sym in Rn, W. rewrite Eds in *.
  destruct (Nat.eqb_spec (length out) (digest_bytes V)) as [Hl|Hl]; cbn [assertb bind] in Rn, W.
  2:{ rewrite Rn. split; [reflexivity|]. apply P_Unwind3.moment_none. reflexivity. }
  destruct Rh as [Ri Ro].
  assert (Hil : len (xorl (hmac_key (SHA V) (block_bytes V) key) (ipad (block_bytes V)) ++ concat inputs) < 2 ^ 61).
  { rewrite BaseFacts.len_app. unfold ipad. rewrite (P_Hmac.xpad_len _ V R C) by assumption. exact Li. }
  pose proof (P_Sha2Stream.hc_write _ _ _ C b _ _ out Ri ltac:(right; exact Hil)) as Wi.
  rewrite P_Sha2Stream.SHA_eq in Wi by exact Hil. rewrite (proj2 (Nat.eqb_eq _ _) Hl) in Wi.
  pose proof (P_Unwind4.write_digest_same P alg b (inner h) out _ Wi) as Ld.
  rewrite Wi in Rn, W. cbn [bind] in W. rewrite W in Rn.
  set (d := SHA V _) in *. set (t := HMAC (SHA V) (block_bytes V) key (concat inputs)) in *.
  change (HMAC_SHA2 V key (concat inputs)) with t. rewrite Rn.
  split; [reflexivity|]. split; [reflexivity|]. apply P_Unwind4.moment_two; [reflexivity|exact Ld|].
  rewrite Hl. exact (P_Hmac.HMAC_length _ V R C key (concat inputs) Bk Lk (BaseFacts.bytes_concat _ Bi)).
Qed.
Print Assumptions C82_write_tag.

(** [extract]: the buffer goes from left to right to the pseudorandom key; with a wrong length it is not touched. *)
Theorem C82_extract : forall H V, sha2 H V -> forall b salt ikm prk,
  bytes salt -> len salt < 2 ^ 61 -> bytes ikm -> Z.of_nat (BLOCK_SIZE H) + len ikm < 2 ^ 61 ->
  let r := u_extract H b salt ikm tt prk in
  let t := HKDF_Extract_SHA2 V salt ikm in
  if (length prk =? DIGEST_SIZE H)%nat
  then outcome r = Ok tt /\ out_after r = t /\ forall buf, moment r prk buf -> exists k, buf = (firstn k t ++ skipn k prk)%list
  else outcome r = Panic /\ forall buf, moment r prk buf -> buf = prk.
Proof.
  intros H V HV b salt ikm prk Bs Ls Bi Li. rewrite (P_Hmac.block_size_eq H V HV) in Li. rewrite (P_Hmac.digest_size_eq H V HV).
  destruct (P_Sha2Stream.sha2_contract _ _ HV) as [R C]. cbv zeta.
  rewrite (P_Unwind4.extract_run H V R C b salt ikm prk Bs Ls Bi Li).
  change (HKDF_Extract_SHA2 V salt ikm) with (HMAC (SHA V) (block_bytes V) salt ikm).
  destruct (Nat.eqb_spec (length prk) (digest_bytes V)) as [Hl|Hl].
  - cbv zeta. set (t := HMAC _ _ _ _).
    assert (Lt : length t = length prk) by (rewrite Hl; exact (P_Hmac.HMAC_length H V R C salt ikm Bs Ls Bi)).
    split; [reflexivity|]. split; [reflexivity|]. now apply P_Unwind3.moment_wr.
  - split; [reflexivity|]. apply P_Unwind3.moment_none. reflexivity.
Qed.
Print Assumptions C82_extract.

(** [expand]: the buffer goes from left to right to the key material; the overflow panic of a build with checks
    (see C11) comes after 254 blocks are written; refused arguments leave the buffer alone. *)
Theorem C82_expand : forall H V, sha2 H V -> forall b prk info okm,
  bytes prk -> len prk < 2 ^ 61 -> bytes info -> len info < 2 ^ 60 ->
  let r := u_expand H b prk info tt okm in
  let ds := DIGEST_SIZE H in
  let OKM := HKDF_Expand_SHA2 V prk info (length okm) in
  if (ds <=? length prk)%nat && (length okm <=? 255 * ds)%nat
  then (forall buf, moment r okm buf -> exists k, buf = (firstn k OKM ++ skipn k okm)%list) /\
    (if match b with Checked => (length okm <? 254 * ds)%nat | Unchecked => true end
     then outcome r = Ok tt /\ out_after r = OKM
     else outcome r = Panic /\ out_after r = (firstn (254 * ds) OKM ++ skipn (254 * ds) okm)%list)
  else outcome r = Panic /\ forall buf, moment r okm buf -> buf = okm.
Proof.
  intros H V HV b prk info okm Bp Lp Bi Li. pose proof (P_Hmac.hkdf_expand H V HV Unchecked prk info okm Bp Lp Bi Li) as X.
  rewrite (P_Hmac.digest_size_eq H V HV) in *. destruct (P_Sha2Stream.sha2_contract _ _ HV) as [R C].
  assert (Hil : Z.of_nat (block_bytes V) + Z.of_nat (digest_bytes V) + len info + 1 < 2 ^ 61).
  { pose proof (P_Sha2Stream.hc_block _ _ _ C). pose proof (P_Sha2Stream.hc_ds_range _ _ _ C). lia. }
  pose proof (P_Sha2Stream.hc_ds_range _ _ _ C) as Hds. cbv zeta.
  rewrite (P_Unwind4.expand_run H V R C prk info Bp Lp Bi Hil b okm).
  change (HKDF_Expand (SHA V) (block_bytes V) (digest_bytes V) prk info (length okm)) with (HKDF_Expand_SHA2 V prk info (length okm)).
  destruct ((digest_bytes V <=? length prk)%nat && (length okm <=? 255 * digest_bytes V)%nat) eqn:Ec.
  2:{ split; [reflexivity|]. apply P_Unwind3.moment_none. reflexivity. }
  cbn [andb] in X. set (OKM := HKDF_Expand_SHA2 V prk info (length okm)) in *.
  assert (LO : length OKM = length okm) by exact (P_Unwind4.expand_length H V R C prk info Bp Lp Bi Hil okm Ec).
  cbv zeta. split.
  - intros buf M. match type of M with moment ?r _ _ => apply (proj1 (P_Unwind3.moment_prefix r okm OKM
      (match b with Checked => 254 * digest_bytes V | Unchecked => length okm end)%nat eq_refl LO buf)) in M end.
    destruct M as (k & _ & M). eauto.
  - destruct b.
    + destruct (Nat.ltb_spec (length okm) (254 * digest_bytes V)) as [Hl|Hl]; (split; [reflexivity|]);
      cbn [out_after]; rewrite P_Unwind3.store_prefix by exact LO; [|reflexivity].
      rewrite firstn_all2 by lia. rewrite skipn_all2 by lia. apply app_nil_r.
    + split; [reflexivity|]. cbn [out_after]. rewrite P_Unwind3.store_prefix by exact LO.
      rewrite firstn_all2 by lia. rewrite skipn_all2 by lia. apply app_nil_r.
Qed.
Print Assumptions C82_expand.
(** The panic of [expand] with a full-size buffer and overflow checks. *)
Example C82_ex : let okm := repeat 7 (255 * 32) in let prk := repeat 1 32 in
  outcome (u_expand Sha256 Checked prk [] tt okm) = Panic /\
  skipn (254 * 32) (out_after (u_expand Sha256 Checked prk [] tt okm)) = repeat 7 32.
Proof.
  cbv zeta. set (okm := repeat 7 (255 * 32)). assert (L : length okm = (255 * 32)%nat) by apply repeat_length.
  assert (S : skipn (254 * 32) okm = repeat 7 32) by reflexivity. clearbody okm.
  assert (Bp : bytes (repeat 1 32)) by (apply BaseFacts.bytes_repeat; unfold byte_ok; lia).
  pose proof (C82_expand Sha256 spec_sha256 is_sha256 Checked (repeat 1 32) [] okm Bp eq_refl ltac:(constructor) eq_refl) as H.
  cbv zeta in H. change (DIGEST_SIZE Sha256) with 32%nat in H. rewrite L, repeat_length in H.
  change ((32 <=? 32)%nat && (255 * 32 <=? 255 * 32)%nat) with true in H. cbv iota in H.
  change (255 * 32 <? 254 * 32)%nat with false in H. cbv iota in H. destruct H as (_ & H1 & H2).
  split; [exact H1|]. rewrite H2, skipn_app.
  assert (LO : length (firstn (254 * 32) (HKDF_Expand_SHA2 spec_sha256 (repeat 1 32) [] (255 * 32))) = (254 * 32)%nat).
  { rewrite firstn_length. destruct (P_Sha2Stream.sha2_contract _ _ is_sha256) as [R C].
    pose proof (P_Unwind4.expand_length Sha256 spec_sha256 R C (repeat 1 32) [] Bp eq_refl ltac:(constructor) eq_refl okm) as X.
    rewrite L in X. rewrite X; [reflexivity|reflexivity]. }
  rewrite LO, Nat.sub_diag, skipn_all2 by (rewrite LO; lia). cbn [app skipn]. exact S.
Qed.
