(** C53-C59: what follows from the base point having prime order L and the curve exponent 8 L. *)
From Coq Require Import String.
From Verif Require Import Base Hex M_Curve25519 M_Ed25519 S_Field S_Edwards S_X25519 S_Ed25519.
From Verif Require P_Ed25519 P_EdDecode P_EdOrder P_EdBind P_PrimeL P_Mont P_X25519 P_Edwards P_Field BaseFacts T_Ed25519 T_X25519 T_Hash Hist M_Sha2.

Lemma ok_inj {A} (x y : A) : Ok x = Ok y -> x = y. Proof. intros H. now injection H. Qed.

(** C53: which other S go with the R, the message and the public key of an accepted signature: exactly the
    representatives of the same residue modulo L below 2^253. *)
Theorem C53_malleability_exact : forall b b' message sig sig' pk,
  length pk = 32%nat -> bytes pk -> bytes sig -> bytes sig' -> bytes message -> len message < 2 ^ 61 - 64 ->
  ed_verify b message sig pk = Ok true ->
  length sig' = 64%nat -> firstn 32 sig' = firstn 32 sig ->
  (ed_verify b' message sig' pk = Ok true <->
   le_decode (skipn 32 sig') < 2 ^ 253 /\ le_decode (skipn 32 sig') mod L = le_decode (skipn 32 sig) mod L).
Proof.
  intros b b' m sig sig' pk Hl Hb Bs Bs' Hm Lm HV Ls EF.
  apply (T_Ed25519.C48_verify b m sig pk Hl Hb Bs Hm Lm) in HV.
  destruct (T_Ed25519.C48_verify b' m sig' pk Hl Hb Bs' Hm Lm) as [V _].
  pose proof (P_EdBind.ref10_same_R m sig sig' pk Hb HV Ls EF) as E. split; intros H.
  - apply E. apply V. exact H.
  - apply V. apply E. exact H.
Qed.
Print Assumptions C53_malleability_exact.
(** So among the signatures with S < L there is at most one for each R, and at most two overall. *)
Theorem C53_unique_below_L : forall b b' message sig sig' pk,
  length pk = 32%nat -> bytes pk -> bytes sig -> bytes sig' -> bytes message -> len message < 2 ^ 61 - 64 ->
  ed_verify b message sig pk = Ok true -> ed_verify b' message sig' pk = Ok true ->
  firstn 32 sig' = firstn 32 sig ->
  le_decode (skipn 32 sig) < L ->
  sig' = sig \/ le_decode (skipn 32 sig') = le_decode (skipn 32 sig) + L.
Proof.
  intros b b' m sig sig' pk Hl Hb Bs Bs' Hm Lm HV HV' EF HL.
  assert (L1 : length sig = 64%nat) by (apply (T_Ed25519.C48_verify b m sig pk Hl Hb Bs Hm Lm) in HV; apply HV).
  assert (L2 : length sig' = 64%nat) by (apply (T_Ed25519.C48_verify b' m sig' pk Hl Hb Bs' Hm Lm) in HV'; apply HV').
  destruct (proj1 (C53_malleability_exact b b' m sig sig' pk Hl Hb Bs Bs' Hm Lm HV L2 EF) HV') as [R E].
  pose proof (BaseFacts.le_decode_range _ (BaseFacts.bytes_skipn 32 sig Bs)) as P1.
  pose proof (BaseFacts.le_decode_range _ (BaseFacts.bytes_skipn 32 sig' Bs')) as P2.
  assert (G : le_decode (skipn 32 sig') = le_decode (skipn 32 sig) \/ le_decode (skipn 32 sig') = le_decode (skipn 32 sig) + L).
  { set (s := le_decode (skipn 32 sig)) in *. set (s' := le_decode (skipn 32 sig')) in *. clearbody s s'.
    rewrite (Z.mod_small s) in E by (clear -P1 HL; lia).
    pose proof (Z.div_mod s' L ltac:(discriminate)) as D. rewrite E in D. set (q := s' / L) in *. clearbody q.
    rewrite P_EdBind.L_num in *. clear -D R P1 P2 HL. assert (q <= -1 \/ q = 0 \/ q = 1 \/ 2 <= q) as [Q|[Q|[Q|Q] ] ] by lia; lia. }
  destruct G as [G|G]; [left|right; exact G].
  rewrite <- (firstn_skipn 32 sig), <- (firstn_skipn 32 sig'), EF. apply f_equal.
  apply BaseFacts.le_decode_inj; [now apply BaseFacts.bytes_skipn|now apply BaseFacts.bytes_skipn| |exact G].
  rewrite !skipn_length, L1, L2. reflexivity.
Qed.
Print Assumptions C53_unique_below_L.
(** The hypotheses hold of every signature made by [sign]. *)
Example C53_ex : forall m sk, length sk = 32%nat -> bytes sk -> bytes m -> len m < 2 ^ 61 - 64 ->
  exists sig pk, length pk = 32%nat /\ bytes pk /\ bytes sig /\ ed_verify Checked m sig pk = Ok true /\
    length sig = 64%nat /\ le_decode (skipn 32 sig) < L.
Proof.
  intros m sk Hl Hb Hm Lm. destruct (T_Ed25519.C47_sign_verify Checked Checked Checked m sk Hl Hb Hm Lm) as (sig & pk & E1 & E2 & E3).
  exists sig, pk. pose proof (T_Ed25519.C46_sign_form Checked m sk sig Hl Hb Hm Lm E1) as (A & B & C).
  rewrite (T_Ed25519.C45_gen_pk Checked sk Hl Hb) in E2. apply ok_inj in E2. subst pk.
  split; [apply P_Ed25519.enc_length|]. split; [apply P_Ed25519.enc_bytes|]. split; [exact B|]. split; [exact E3|].
  split; [exact A|apply C].
Qed.

(** C54: two Ed25519 secret keys have the same public key exactly when the clamped first halves of their SHA-512
    hashes are the same number. *)
Theorem C54_ed25519_public_keys : forall b b' sk sk',
  length sk = 32%nat -> bytes sk -> length sk' = 32%nat -> bytes sk' ->
  (ed_gen_pk b sk = ed_gen_pk b' sk' <->
   decode_scalar (firstn 32 (H512 sk)) = decode_scalar (firstn 32 (H512 sk'))).
Proof.
  intros b b' sk sk' L1 B1 L2 B2. rewrite (T_Ed25519.C45_gen_pk b sk L1 B1), (T_Ed25519.C45_gen_pk b' sk' L2 B2).
  pose proof (P_EdBind.pk_collision sk sk') as E. split; intros H.
  - apply ok_inj in H. apply E. exact H.
  - apply f_equal. apply E. exact H.
Qed.
Print Assumptions C54_ed25519_public_keys.
(** Two X25519 secret keys have the same public key exactly when their clamped scalars are equal or add up to 8 L. *)
Theorem C54_x25519_public_keys : forall b b' sk sk',
  length sk = 32%nat -> bytes sk -> length sk' = 32%nat -> bytes sk' ->
  (x_gen_pk b sk = x_gen_pk b' sk' <->
   decode_scalar sk = decode_scalar sk' \/ decode_scalar sk + decode_scalar sk' = 8 * L).
Proof.
  intros b b' sk sk' L1 B1 L2 B2.
  rewrite (T_X25519.C52_gen_pk_is_multiplication b sk L1 B1), (T_X25519.C52_gen_pk_is_multiplication b' sk' L2 B2).
  pose proof (P_EdBind.mont_mulB (decode_scalar sk) (decode_scalar sk') (P_EdBind.clamped_not_L sk)) as E.
  split; intros H.
  - apply ok_inj in H. apply P_EdBind.encode_u_inj in H. apply E in H. destruct H as [H|H].
    + left. exact (P_EdBind.clamped_eq _ _ H).
    + right. apply P_EdBind.clamped_opp. exact H.
  - apply f_equal. apply (f_equal (fun u => le_encode 32 (fz u))). apply E. destruct H as [H|H].
    + left. rewrite H. exact eq_refl.
    + right. apply P_EdBind.clamped_opp. exact H.
Qed.
Print Assumptions C54_x25519_public_keys.
(** Such a pair exists: these two secret keys have different clamped scalars and the same X25519 public key. *)
Example C54_ex :
  let sk := repeat 0 32 in let sk' := le_encode 32 (8 * L) in
  x_gen_pk Checked sk = x_gen_pk Checked sk' /\ decode_scalar sk <> decode_scalar sk'.
Proof.
  cbv zeta. split.
  - apply C54_x25519_public_keys; [reflexivity|now apply BaseFacts.bytesb_spec|reflexivity|now apply BaseFacts.bytesb_spec|].
    right. vm_compute. reflexivity.
  - vm_compute. discriminate.
Qed.

(** C55: the secret shared with a public key made by [gen_pk] is never all zeros. *)
Theorem C55_honest_secret_nonzero : forall b b' a bk pk secret,
  length a = 32%nat -> bytes a -> length bk = 32%nat -> bytes bk ->
  x_gen_pk b' bk = Ok pk -> x_dh b pk a = Ok secret -> secret <> repeat 0 32.
Proof.
  intros b b' a bk pk secret L1 B1 L2 B2 Hpk Hs.
  rewrite (T_X25519.C52_gen_pk_is_multiplication b' bk L2 B2) in Hpk. apply ok_inj in Hpk. subst pk.
  rewrite (P_EdBind.dh_encoded b _ a (P_Ed25519.on_curve_mulB (decode_scalar bk)) L1 B1) in Hs. apply ok_inj in Hs. subst secret.
  intros E. apply P_EdBind.encode_u_zero in E. apply (P_EdBind.clamped_zero a _ (P_Ed25519.on_curve_mulB _)) in E.
  rewrite (P_Edwards.ed_mul_mul 8 _ ed_B P_Edwards.on_curve_B) in E. apply P_EdOrder.order_B in E.
  apply (fun D => Znumtheory.Gauss L 8 _ D P_EdBind.L_8) in E. exact (P_EdBind.clamped_not_L bk E).
Qed.
Print Assumptions C55_honest_secret_nonzero.
(** For a public key that stands for a point P of the curve the secret is all zeros exactly when [8]P is the neutral
    element, whatever the secret key. *)
Theorem C55_zero_exactly : forall b pk sk P,
  length pk = 32%nat -> bytes pk -> length sk = 32%nat -> bytes sk -> on_curve P ->
  le_decode pk mod 2 ^ 255 = fz (mont_u P) ->
  (x_dh b pk sk = Ok (repeat 0 32) <-> ed_mul 8 P = ed_zero).
Proof.
  intros b pk sk P Lp Bp Ls Bs CP Hu. rewrite (T_X25519.C52_dh_is_multiplication b pk sk P Lp Bp Ls Bs CP Hu).
  pose proof (P_EdBind.clamped_zero sk P CP) as E. split; intros H.
  - apply ok_inj in H. apply P_EdBind.encode_u_zero in H. apply E. exact H.
  - apply E in H. rewrite H. exact eq_refl.
Qed.
Print Assumptions C55_zero_exactly.
(** Both sides occur: the base point does not have order 8, the point (0, -1) does. *)
Example C55_ex : ed_mul 8 ed_B <> ed_zero /\ ed_mul 8 ed_zero = ed_zero.
Proof.
  split; [|apply P_Edwards.ed_mul_zero]. intros H. apply P_EdOrder.order_B in H.
  apply Z.divide_pos_le in H; [|reflexivity]. exact (H eq_refl).
Qed.

(** C56: with one secret key, different honest public keys give different secrets. *)
Theorem C56_secrets_distinct : forall b b1 b2 a k1 k2 pk1 pk2,
  length a = 32%nat -> bytes a -> length k1 = 32%nat -> bytes k1 -> length k2 = 32%nat -> bytes k2 ->
  x_gen_pk b1 k1 = Ok pk1 -> x_gen_pk b2 k2 = Ok pk2 ->
  (x_dh b pk1 a = x_dh b pk2 a <-> pk1 = pk2).
Proof.
  intros b b1 b2 a k1 k2 pk1 pk2 La Ba L1 B1 L2 B2 H1 H2. split; [|intros ->; exact eq_refl].
  rewrite (T_X25519.C52_gen_pk_is_multiplication b1 k1 L1 B1) in H1. apply ok_inj in H1. subst pk1.
  rewrite (T_X25519.C52_gen_pk_is_multiplication b2 k2 L2 B2) in H2. apply ok_inj in H2. subst pk2.
  rewrite (P_EdBind.dh_encoded b _ a (P_Ed25519.on_curve_mulB (decode_scalar k1)) La Ba).
  rewrite (P_EdBind.dh_encoded b _ a (P_Ed25519.on_curve_mulB (decode_scalar k2)) La Ba).
  intros H. apply ok_inj in H. apply P_EdBind.encode_u_inj in H.
  apply (f_equal (fun u => le_encode 32 (fz u))). exact (P_EdBind.mont_mulB_cancel a k1 k2 H).
Qed.
Print Assumptions C56_secrets_distinct.
(** And with one honest public key, two secret keys give the same secret exactly when they have the same public key. *)
Theorem C56_secret_keys_distinct : forall b b1 b2 b3 a1 a2 k pk,
  length a1 = 32%nat -> bytes a1 -> length a2 = 32%nat -> bytes a2 -> length k = 32%nat -> bytes k ->
  x_gen_pk b1 k = Ok pk ->
  (x_dh b pk a1 = x_dh b pk a2 <-> x_gen_pk b2 a1 = x_gen_pk b3 a2).
Proof.
  intros b b1 b2 b3 a1 a2 k pk L1 B1 L2 B2 Lk Bk Hk.
  assert (G : forall x, length x = 32%nat -> bytes x -> forall b', exists px, x_gen_pk b' x = Ok px /\ x_dh b pk x = x_dh b px k /\
              forall b'', x_gen_pk b'' x = Ok px).
  { intros x Lx Bx b'. exists (le_encode 32 (fz (mont_u (ed_mul (decode_scalar x) ed_B)))).
    pose proof (T_X25519.C52_gen_pk_is_multiplication b x Lx Bx) as E.
    split; [apply T_X25519.C52_gen_pk_is_multiplication; assumption|].
    split; [|intros b''; apply T_X25519.C52_gen_pk_is_multiplication; assumption].
    assert (Hk' : x_gen_pk b k = Ok pk).
    { rewrite <- Hk. rewrite !T_X25519.C52_gen_pk_is_multiplication by assumption. exact eq_refl. }
    destruct (T_X25519.C38_key_agreement b b x k _ pk Lx Bx Lk Bk E Hk') as (s & -> & ->). exact eq_refl. }
  destruct (G a1 L1 B1 b2) as (p1 & E1 & F1 & H1). destruct (G a2 L2 B2 b3) as (p2 & E2 & F2 & H2).
  rewrite F1, F2, E1, E2. rewrite (C56_secrets_distinct b b2 b3 k a1 a2 p1 p2 Lk Bk L1 B1 L2 B2 E1 E2).
  split; intros H; [rewrite H; exact eq_refl|exact (ok_inj _ _ H)].
Qed.
Print Assumptions C56_secret_keys_distinct.

(** C57: a signature accepted for two messages under a key made by [gen_pk] forces the two hashes that RFC 8032 takes
    of R, the key and the message to agree modulo L. *)
Theorem C57_message_binding : forall b b1 b2 m m' sig sk pk,
  length sk = 32%nat -> bytes sk -> ed_gen_pk b sk = Ok pk -> bytes sig ->
  bytes m -> len m < 2 ^ 61 - 64 -> bytes m' -> len m' < 2 ^ 61 - 64 ->
  ed_verify b1 m sig pk = Ok true -> ed_verify b2 m' sig pk = Ok true ->
  le_decode (H512 (firstn 32 sig ++ pk ++ m)) mod L = le_decode (H512 (firstn 32 sig ++ pk ++ m')) mod L.
Proof.
  intros b b1 b2 m m' sig sk pk Ls Bs Hpk Bsig Hm Lm Hm' Lm' H H'.
  rewrite (T_Ed25519.C45_gen_pk b sk Ls Bs) in Hpk. apply ok_inj in Hpk.
  assert (Lp : length pk = 32%nat) by (rewrite <- Hpk; apply P_Ed25519.enc_length).
  assert (Bp : bytes pk) by (rewrite <- Hpk; apply P_Ed25519.enc_bytes).
  apply (T_Ed25519.C48_verify b1 m sig pk Lp Bp Bsig Hm Lm) in H.
  apply (T_Ed25519.C48_verify b2 m' sig pk Lp Bp Bsig Hm' Lm') in H'.
  exact (P_EdBind.ref10_binding m m' sig sk pk (eq_sym Hpk) H H').
Qed.
Print Assumptions C57_message_binding.
(** This fails for public keys that are not made by [gen_pk]: with the neutral element as public key one signature is
    accepted for every message (C48_ex). *)

(** C58: whatever the public key, an accepted signature with S < L and a canonical public key satisfies the
    verification of RFC 8032 with the cofactor. *)
Theorem C58_accepts_only_rfc : forall b message sig pk,
  length pk = 32%nat -> bytes pk -> bytes sig -> bytes message -> len message < 2 ^ 61 - 64 ->
  ed_verify b message sig pk = Ok true ->
  le_decode (skipn 32 sig) < L -> (exists A, rfc_decodes pk A) ->
  rfc_verifies_cofactored message sig pk.
Proof.
  intros b m sig pk Hl Hb Bs Hm Lm HV HS (A & HA). apply (T_Ed25519.C48_verify b m sig pk Hl Hb Bs Hm Lm) in HV.
  exact (P_EdBind.ref10_cofactored m sig pk A Bs Hb HV HS HA).
Qed.
Print Assumptions C58_accepts_only_rfc.
(** It is stricter: this signature (R of order 2, the neutral element as public key, S = 0) passes the check with the
    cofactor and is rejected by [verify], for every message. *)
Theorem C58_stricter : forall b message, bytes message -> len message < 2 ^ 61 - 64 ->
  let sig := (le_encode 32 (p - 1) ++ repeat 0 32)%list in let pk := le_encode 32 1 in
  rfc_verifies_cofactored message sig pk /\ ed_verify b message sig pk = Ok false.
Proof.
  intros b m Hm Lm. cbv zeta. split; [exact (P_EdBind.cofactored_example m)|].
  apply T_Ed25519.C48_verify; [reflexivity|now apply BaseFacts.bytesb_spec|now apply BaseFacts.bytesb_spec|exact Hm|exact Lm|].
  exact (P_EdBind.cofactored_example_rejected m).
Qed.
Print Assumptions C58_stricter.

(** C59: two signatures made with one secret key have the same R exactly when the nonces, the hashes of the prefix and
    the message, agree modulo L; then the secret scalar satisfies a linear equation with public coefficients. *)
Theorem C59_nonces : forall b b' m m' sk sig sig',
  length sk = 32%nat -> bytes sk -> bytes m -> len m < 2 ^ 61 - 64 -> bytes m' -> len m' < 2 ^ 61 - 64 ->
  ed_sign b m sk = Ok sig -> ed_sign b' m' sk = Ok sig' ->
  (firstn 32 sig = firstn 32 sig' <->
   le_decode (H512 (skipn 32 (H512 sk) ++ m)) mod L = le_decode (H512 (skipn 32 (H512 sk) ++ m')) mod L).
Proof.
  intros b b' m m' sk sig sig' Ls Bs Hm Lm Hm' Lm' E E'.
  rewrite (T_Ed25519.C46_sign b m sk Ls Bs Hm Lm) in E. apply ok_inj in E. subst sig.
  rewrite (T_Ed25519.C46_sign b' m' sk Ls Bs Hm' Lm') in E'. apply ok_inj in E'. subst sig'.
  exact (P_EdBind.same_R m m' sk).
Qed.
Print Assumptions C59_nonces.
Theorem C59_reuse_reveals : forall b b' bp m m' sk sig sig' pk,
  length sk = 32%nat -> bytes sk -> bytes m -> len m < 2 ^ 61 - 64 -> bytes m' -> len m' < 2 ^ 61 - 64 ->
  ed_sign b m sk = Ok sig -> ed_sign b' m' sk = Ok sig' -> ed_gen_pk bp sk = Ok pk ->
  firstn 32 sig = firstn 32 sig' ->
  let k := le_decode (H512 (firstn 32 sig ++ pk ++ m)) in
  let k' := le_decode (H512 (firstn 32 sig' ++ pk ++ m')) in
  ((k - k') * decode_scalar (firstn 32 (H512 sk))) mod L =
  (le_decode (skipn 32 sig) - le_decode (skipn 32 sig')) mod L.
Proof.
  intros b b' bp m m' sk sig sig' pk Ls Bs Hm Lm Hm' Lm' E E' Ep HR.
  rewrite (T_Ed25519.C46_sign b m sk Ls Bs Hm Lm) in E. apply ok_inj in E. subst sig.
  rewrite (T_Ed25519.C46_sign b' m' sk Ls Bs Hm' Lm') in E'. apply ok_inj in E'. subst sig'.
  rewrite (T_Ed25519.C45_gen_pk bp sk Ls Bs) in Ep. apply ok_inj in Ep. subst pk.
  exact (P_EdBind.reuse_reveals m m' sk HR).
Qed.
Print Assumptions C59_reuse_reveals.

(** C66: an Ed25519 key pair converts to an X25519 key pair: the first half of the SHA-512 of the secret key is an X25519 secret key
    whose public key is (1+y)/(1-y) for the y-coordinate y in the Ed25519 public key; the division is never by zero. *)
Theorem C66_ed25519_to_x25519 : forall b b' b'' sk pk h,
  length sk = 32%nat -> bytes sk -> ed_gen_pk b sk = Ok pk -> M_Sha2.hash_wrapper M_Sha2.Sha512 b'' sk = Ok h ->
  let y := toF (le_decode pk mod 2 ^ 255) in
  fsub f1 y <> f0 /\
  x_gen_pk b' (firstn 32 h) = Ok (le_encode 32 (fz (fdiv (fadd f1 y) (fsub f1 y)))).
Proof.
  intros b b' b'' sk pk h Ls Bs Hpk Hh y.
  assert (Eh : h = H512 sk).
  { apply ok_inj. rewrite <- Hh. apply (T_Hash.C02_sha2_oneshot _ _ Hist.is_sha512); [exact Bs|]. unfold len. rewrite Ls. reflexivity. }
  rewrite (T_Ed25519.C45_gen_pk b sk Ls Bs) in Hpk. apply ok_inj in Hpk.
  pose proof (P_Ed25519.on_curve_mulB (ed_secret_scalar sk)) as C.
  assert (Ey : y = snd (ed_mul (ed_secret_scalar sk) ed_B)).
  { unfold y. rewrite <- Hpk. pose proof (P_Ed25519.rfc_of_encode _ C) as (_ & _ & _ & Y & _).
    unfold rfc_public_key. rewrite <- Y. exact (P_Field.toF_fz _). }
  clearbody y. subst h.
  split.
  - intros E. assert (E1 : y = f1). { clear -E. exact (P_EdBind.sub_1 y E). }
    pose proof (P_EdBind.clamped_not_L (firstn 32 (H512 sk))) as N. apply N. apply P_EdOrder.order_B.
    apply (P_EdBind.y1_zero _ C). rewrite <- Ey. exact E1.
  - rewrite (T_X25519.C52_gen_pk_is_multiplication b' (firstn 32 (H512 sk))).
    + apply f_equal. apply (f_equal (fun u => le_encode 32 (fz u))). fold (ed_secret_scalar sk).
      revert Ey. destruct (ed_mul (ed_secret_scalar sk) ed_B) as [x0 y0]. cbn [snd]. intros ->. exact eq_refl.
    + rewrite firstn_length, (P_Ed25519.H512_length sk Bs). reflexivity.
    + apply BaseFacts.bytes_firstn. exact (P_Ed25519.H512_bytes sk).
Qed.
Print Assumptions C66_ed25519_to_x25519.
(** Any 32-byte secret key meets the hypotheses. *)
Example C66_ex : forall b, exists pk h, ed_gen_pk b (repeat 7 32) = Ok pk /\ M_Sha2.hash_wrapper M_Sha2.Sha512 b (repeat 7 32) = Ok h.
Proof.
  intros b. assert (B : bytes (repeat 7 32)) by now apply BaseFacts.bytesb_spec. do 2 eexists.
  split; [exact (T_Ed25519.C45_gen_pk b (repeat 7 32) eq_refl B)|]. apply (T_Hash.C02_sha2_oneshot _ _ Hist.is_sha512); [exact B|reflexivity].
Qed.
