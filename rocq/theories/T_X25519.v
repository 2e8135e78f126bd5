(** C36-C40, C43, C52 and the X25519 halves of C41 and C42. *)
From Coq Require Import String.
From Verif Require Import Base Hex M_Curve25519 S_Field S_X25519 S_Edwards.
From Verif Require P_X25519 P_X25519b P_Field BaseFacts P_Edwards P_Mont.

(** C36: [dh] is the X25519 function of RFC 7748 ([x25519 scalar u]). *)
Theorem C36_dh_is_x25519 : forall b public_key secret_key,
  length public_key = 32%nat -> bytes public_key -> length secret_key = 32%nat -> bytes secret_key ->
  x_dh b public_key secret_key = Ok (x25519 secret_key public_key).
Proof. intros. unfold x_dh. now apply P_X25519.scalarmult_ok. Qed.
Print Assumptions C36_dh_is_x25519.

(** RFC 7748 section 5.2, first vector, as a value of the specification and (by C36) of the model.  Computed by the
    VM here; left out of the compiled file because re-checking it without the VM is slow. *)
Goal x25519 (h2b "a546e36bf0527c9d3b16154b82465edd62144c0ac1fc5a18506a2244ba449ac4")
            (h2b "e6db6867583030db3594c1a424b15f7c726624ec26b3353b10a903a6d0ab1c4c")
  = h2b "c3da55379de9c6908e94ea4df28d084f32eccf03491c71f754b4075577a28552".
Proof. vm_compute. reflexivity. Abort.

(** The hypotheses hold for that vector; the scalar and the coordinate decode to the values given in the RFC. *)
Example C36_ex :
  let k := h2b "a546e36bf0527c9d3b16154b82465edd62144c0ac1fc5a18506a2244ba449ac4" in
  let u := h2b "e6db6867583030db3594c1a424b15f7c726624ec26b3353b10a903a6d0ab1c4c" in
  length k = 32%nat /\ bytes k /\ length u = 32%nat /\ bytes u /\
  decode_scalar k = 31029842492115040904895560451863089656472772604678260265531221036453811406496 /\
  fz (decode_u u) = 34426434033919594451155107781188821651316167215306631574996226621102155684838.
Proof.
  cbv zeta. split; [reflexivity|]. split; [now apply BaseFacts.bytesb_spec|]. split; [reflexivity|].
  split; [now apply BaseFacts.bytesb_spec|]. vm_compute. auto.
Qed.

(** C37: [gen_pk] is [dh] with the base point, whose u-coordinate is 9. *)
Theorem C37_gen_pk : forall b secret_key base,
  length base = 32%nat -> bytes base -> le_decode base = 9 ->
  x_gen_pk b secret_key = x_dh b base secret_key /\
  (length secret_key = 32%nat -> bytes secret_key -> x_gen_pk b secret_key = Ok (x25519 secret_key base)).
Proof.
  intros b sk base Hl Hb H9.
  assert (E : base = 9 :: repeat 0 31).
  { rewrite <- (BaseFacts.le_encode_decode base Hb), Hl, H9. reflexivity. }
  split; [now rewrite E|]. intros Hs Hbs.
  assert (G : x_gen_pk b sk = x_dh b base sk) by now rewrite E.
  rewrite G. now apply C36_dh_is_x25519.
Qed.
Print Assumptions C37_gen_pk.
Example C37_ex : length (le_encode 32 9) = 32%nat /\ bytes (le_encode 32 9) /\ le_decode (le_encode 32 9) = 9.
Proof. split; [reflexivity|]. split; [now apply BaseFacts.bytesb_spec|reflexivity]. Qed.
(** RFC 7748 section 6.1: Alice's public key. *)
Goal x_gen_pk Checked (h2b "77076d0a7318a57d3c16c17251b26645df4c2f87ebc0992ab177fba51db92c2a")
  = Ok (h2b "8520f0098930a754748b7ddcb43ef75a0dbf3a0d26381af4eba4a98eaa9b4e6a").
Proof. vm_compute. reflexivity. Abort.

(** C39: bits 0, 1, 2, 254, 255 of the secret key and bit 255 of the public key do not matter. *)
Theorem C39_ignored_bits : forall b pk pk' sk sk',
  length pk = 32%nat -> bytes pk -> length pk' = 32%nat -> bytes pk' ->
  length sk = 32%nat -> bytes sk -> length sk' = 32%nat -> bytes sk' ->
  (forall i, 3 <= i < 254 -> Z.testbit (le_decode sk) i = Z.testbit (le_decode sk') i) ->
  (forall i, 0 <= i < 255 -> Z.testbit (le_decode pk) i = Z.testbit (le_decode pk') i) ->
  x_dh b pk sk = x_dh b pk' sk' /\ x_gen_pk b sk = x_gen_pk b sk'.
Proof.
  intros b pk pk' sk sk' L1 B1 L2 B2 L3 B3 L4 B4 Hs Hp.
  assert (Hc : length (9 :: repeat 0 31) = 32%nat /\ bytes (9 :: repeat 0 31))
    by (split; [reflexivity|now apply BaseFacts.bytesb_spec]).
  split; unfold x_gen_pk, x_dh; rewrite !P_X25519.scalarmult_ok by tauto; unfold x25519;
    rewrite (P_X25519b.decode_scalar_bits sk sk' Hs).
  - now rewrite (P_X25519b.decode_u_bits pk pk' Hp).
  - reflexivity.
Qed.
Print Assumptions C39_ignored_bits.
Example C39_ex :
  let sk := le_encode 32 8 in let sk' := le_encode 32 (15 + 2 ^ 254 + 2 ^ 255) in
  let pk := le_encode 32 9 in let pk' := le_encode 32 (9 + 2 ^ 255) in
  sk <> sk' /\ pk <> pk' /\
  (forall i, 3 <= i < 254 -> Z.testbit (le_decode sk) i = Z.testbit (le_decode sk') i) /\
  (forall i, 0 <= i < 255 -> Z.testbit (le_decode pk) i = Z.testbit (le_decode pk') i).
Proof.
  cbv zeta. assert (N : forall x y, (x mod 2 ^ 256 =? y mod 2 ^ 256) = false -> le_encode 32 x <> le_encode 32 y).
  { intros x y H E. apply (f_equal le_decode) in E. rewrite !BaseFacts.le_decode_encode in E.
    change (256 ^ Z.of_nat 32) with (2 ^ 256) in E. apply Z.eqb_neq in H. contradiction. }
  split; [apply N; reflexivity|]. split; [apply N; reflexivity|].
  rewrite !BaseFacts.le_decode_encode. change (256 ^ Z.of_nat 32) with (2 ^ 256). rewrite !Z.mod_small by lia.
  split; intros i Hi.
  - rewrite <- (Z.mod_pow2_bits_low 8 254 i), <- (Z.mod_pow2_bits_low (15 + 2 ^ 254 + 2 ^ 255) 254 i) by lia.
    replace (Z.testbit (8 mod 2 ^ 254) i) with (Z.testbit (8 / 2 ^ 3) (i - 3)).
    + replace (Z.testbit ((15 + 2 ^ 254 + 2 ^ 255) mod 2 ^ 254) i) with (Z.testbit (15 / 2 ^ 3) (i - 3)); [reflexivity|].
      rewrite Z.div_pow2_bits by lia. change ((15 + 2 ^ 254 + 2 ^ 255) mod 2 ^ 254) with 15. f_equal. lia.
    + rewrite Z.div_pow2_bits by lia. change (8 mod 2 ^ 254) with 8. f_equal. lia.
  - rewrite <- (Z.mod_pow2_bits_low (9 + 2 ^ 255) 255 i) by lia. reflexivity.
Qed.

(** C40: the output is always the canonical encoding of an integer modulo 2^255 - 19. *)
Theorem C40_canonical_output : forall b pk sk out, bytes pk -> bytes sk ->
  x_dh b pk sk = Ok out \/ x_gen_pk b sk = Ok out ->
  length out = 32%nat /\ bytes out /\ le_decode out < 2 ^ 255 - 19.
Proof.
  intros b pk sk out Hp Hs H.
  assert (G : exists u, bytes u /\ x_dh b u sk = Ok out).
  { destruct H as [H|H]; [exists pk; auto|]. exists (9 :: repeat 0 31). split; [now apply BaseFacts.bytesb_spec|exact H]. }
  destruct G as (u & Hu & G).
  assert (Ls : length sk = 32%nat /\ length u = 32%nat).
  { unfold x_dh, scalarmult in G. destruct (Nat.eqb_spec 32 (length sk)); [|discriminate G].
    destruct (Nat.eqb_spec 32 (length u)); [|discriminate G]. auto. }
  destruct Ls as [Ls Lu]. rewrite C36_dh_is_x25519 in G by assumption. injection G as <-.
  unfold x25519, encode_u. split; [apply BaseFacts.le_encode_length|]. split; [apply BaseFacts.le_encode_bytes|].
  rewrite BaseFacts.le_decode_encode. change (256 ^ Z.of_nat 32) with (2 ^ 256).
  pose proof (P_Field.fz_range (x25519_F (decode_scalar sk) (decode_u u))) as R. unfold p in R.
  rewrite Z.mod_small by lia. lia.
Qed.
Print Assumptions C40_canonical_output.
Example C40_ex : exists out, x_dh Checked (repeat 255 32) (repeat 255 32) = Ok out.
Proof.
  eexists. apply C36_dh_is_x25519; (reflexivity || now apply BaseFacts.bytesb_spec).
Qed.

(** C41 (X25519): no overflow, so both kinds of build agree on all inputs. *)
Theorem C41_x25519_builds_agree : forall pk sk, bytes pk -> bytes sk ->
  x_dh Checked pk sk = x_dh Unchecked pk sk /\ x_gen_pk Checked sk = x_gen_pk Unchecked sk.
Proof.
  intros pk sk Hp Hs.
  assert (G : forall u, bytes u -> x_dh Checked u sk = x_dh Unchecked u sk).
  { intros u Hu. destruct (Nat.eq_dec 32 (length sk)) as [E1|N1].
    - destruct (Nat.eq_dec 32 (length u)) as [E2|N2].
      + rewrite !C36_dh_is_x25519 by auto. reflexivity.
      + unfold x_dh, scalarmult. rewrite <- E1, (proj2 (Nat.eqb_neq _ _) N2). cbn [Nat.eqb assertb bind]. reflexivity.
    - unfold x_dh, scalarmult. rewrite (proj2 (Nat.eqb_neq _ _) N1). cbn [assertb bind]. reflexivity. }
  split; [now apply G|]. apply (G (9 :: repeat 0 31)). now apply BaseFacts.bytesb_spec.
Qed.
Print Assumptions C41_x25519_builds_agree.

(** C42 (X25519): panics exactly on a key that is not 32 bytes long. *)
Theorem C42_x25519_panics : forall b pk sk, bytes pk -> bytes sk ->
  (x_dh b pk sk = Panic <-> length pk <> 32%nat \/ length sk <> 32%nat) /\
  (x_gen_pk b sk = Panic <-> length sk <> 32%nat).
Proof.
  intros b pk sk Hp Hs.
  assert (G : forall u, bytes u -> (x_dh b u sk = Panic <-> length u <> 32%nat \/ length sk <> 32%nat)).
  { intros u Hu. destruct (Nat.eq_dec (length sk) 32) as [E1|N1].
    - destruct (Nat.eq_dec (length u) 32) as [E2|N2].
      + rewrite !C36_dh_is_x25519 by auto. split; [discriminate|tauto].
      + split; [tauto|]. intros _. unfold x_dh, scalarmult. rewrite E1, (proj2 (Nat.eqb_neq 32 (length u))) by congruence.
        cbn [Nat.eqb assertb bind]. reflexivity.
    - split; [tauto|]. intros _. unfold x_dh, scalarmult. rewrite (proj2 (Nat.eqb_neq 32 (length sk))) by congruence.
      cbn [assertb bind]. reflexivity. }
  split; [now apply G|]. pose proof (G (9 :: repeat 0 31) ltac:(now apply BaseFacts.bytesb_spec)) as H.
  change (x_dh b (9 :: repeat 0 31) sk) with (x_gen_pk b sk) in H. change (length (9 :: repeat 0 31)) with 32%nat in H. tauto.
Qed.
Print Assumptions C42_x25519_panics.
Example C42_x_ex : x_dh Checked (repeat 1 31) (repeat 1 32) = Panic /\ x_gen_pk Checked (repeat 1 33) = Panic
  /\ x_dh Checked [] [] = Panic.
Proof. repeat split. Qed.

(** C38: both parties compute the same secret. *)
Theorem C38_key_agreement : forall ba bb a b pka pkb,
  length a = 32%nat -> bytes a -> length b = 32%nat -> bytes b ->
  x_gen_pk ba a = Ok pka -> x_gen_pk bb b = Ok pkb ->
  exists secret, x_dh ba pkb a = Ok secret /\ x_dh bb pka b = Ok secret.
Proof.
  intros ba bb a b pka pkb La Ba Lb Bb Ha Hb.
  assert (Hc : length (9 :: repeat 0 31) = 32%nat /\ bytes (9 :: repeat 0 31))
    by (split; [reflexivity|now apply BaseFacts.bytesb_spec]).
  unfold x_gen_pk in Ha, Hb. rewrite P_X25519.scalarmult_ok in Ha, Hb by tauto. injection Ha as <-. injection Hb as <-.
  assert (L : forall k u, length (x25519 k u) = 32%nat /\ bytes (x25519 k u)).
  { intros k u. unfold x25519, encode_u. split; [apply BaseFacts.le_encode_length|apply BaseFacts.le_encode_bytes]. }
  exists (x25519 a (x25519 b (9 :: repeat 0 31))). rewrite !C36_dh_is_x25519 by (assumption || apply L).
  split; [reflexivity|]. f_equal. apply P_Mont.x25519_comm. reflexivity.
Qed.
Print Assumptions C38_key_agreement.
(** RFC 7748 section 6.1: the two public keys lead to one secret; both exist for these (and all) keys. *)
Example C38_ex :
  let a := h2b "77076d0a7318a57d3c16c17251b26645df4c2f87ebc0992ab177fba51db92c2a" in
  let b := h2b "5dab087e624a8a4b79e17f8b83800ee66f3bb1292618b6fd1c2f8b27ff88e0eb" in
  length a = 32%nat /\ bytes a /\ length b = 32%nat /\ bytes b /\
  (exists pka, x_gen_pk Checked a = Ok pka) /\ exists pkb, x_gen_pk Checked b = Ok pkb.
Proof.
  cbv zeta. split; [reflexivity|]. split; [now apply BaseFacts.bytesb_spec|]. split; [reflexivity|].
  split; [now apply BaseFacts.bytesb_spec|].
  assert (G : forall k, length k = 32%nat -> bytes k -> exists pk, x_gen_pk Checked k = Ok pk).
  { intros k Lk Bk. eexists. exact (C36_dh_is_x25519 Checked (9 :: repeat 0 31) k eq_refl
      ltac:(now apply BaseFacts.bytesb_spec) Lk Bk). }
  split; apply G; (reflexivity || now apply BaseFacts.bytesb_spec).
Qed.

(** C52: [dh] is multiplication on the curve: when the public key encodes the u-coordinate of a point P of
    edwards25519 (in the correspondence of RFC 7748 section 4.1), the result encodes that of [k]P, k being the clamped
    secret key; and the base point of [gen_pk] is the base point of edwards25519. *)
Theorem C52_dh_is_multiplication : forall b pk sk P,
  length pk = 32%nat -> bytes pk -> length sk = 32%nat -> bytes sk ->
  on_curve P -> le_decode pk mod 2 ^ 255 = fz (mont_u P) ->
  x_dh b pk sk = Ok (le_encode 32 (fz (mont_u (ed_mul (decode_scalar sk) P)))).
Proof.
  intros b pk sk P Lp Bp Ls Bs HP Hu. rewrite C36_dh_is_x25519 by assumption. unfold x25519, encode_u. do 3 f_equal.
  assert (E : decode_u pk = mont_u P) by (unfold decode_u; rewrite Hu; apply P_Field.toF_fz).
  rewrite E. destruct (P_X25519b.decode_scalar_8 sk) as [_ H8].
  exact (P_Mont.x25519_mul P _ HP (P_Mont.decode_scalar_range sk) H8).
Qed.
Print Assumptions C52_dh_is_multiplication.
Theorem C52_gen_pk_is_multiplication : forall b sk, length sk = 32%nat -> bytes sk ->
  x_gen_pk b sk = Ok (le_encode 32 (fz (mont_u (ed_mul (decode_scalar sk) ed_B)))).
Proof.
  intros b sk Ls Bs.
  assert (Hb : bytes (9 :: repeat 0 31)) by now apply BaseFacts.bytesb_spec.
  assert (Hu : le_decode (9 :: repeat 0 31) mod 2 ^ 255 = fz (mont_u ed_B)) by (rewrite P_Mont.mont_u_B; reflexivity).
  exact (C52_dh_is_multiplication b (9 :: repeat 0 31) sk ed_B eq_refl Hb Ls Bs P_Edwards.on_curve_B Hu).
Qed.
Print Assumptions C52_gen_pk_is_multiplication.
(** Non-vacuous: the base point, which is on the curve and has u = 9. *)
Example C52_ex : on_curve ed_B /\ le_decode (9 :: repeat 0 31) mod 2 ^ 255 = fz (mont_u ed_B).
Proof. split; [exact P_Edwards.on_curve_B|]. rewrite P_Mont.mont_u_B. reflexivity. Qed.

(** C43: public keys that stand for 0, 1, -1 or one of the two u-coordinates of order 8 modulo p (all points of order
    1, 2, 4 and 8 of the curve and its twist), canonical or not and with either top bit: the shared secret is 32 zero
    bytes whatever the secret key. *)
Theorem C43_low_order : forall b pk sk,
  length pk = 32%nat -> bytes pk -> length sk = 32%nat -> bytes sk ->
  let u := (le_decode pk mod 2 ^ 255) mod (2 ^ 255 - 19) in
  u = 0 \/ u = 1 \/ u = 2 ^ 255 - 20 \/
  u = 325606250916557431795983626356110631294008115727848805560023387167927233504 \/
  u = 39382357235489614581723060781553021112529911719440698176882885853963445705823 ->
  x_dh b pk sk = Ok (repeat 0 32).
Proof.
  intros b pk sk Lp Bp Ls Bs u Hu. rewrite C36_dh_is_x25519 by assumption. f_equal.
  unfold x25519. destruct (P_X25519b.decode_scalar_8 sk) as [H0 H8].
  assert (E : x25519_F (decode_scalar sk) (decode_u pk) = f0).
  { assert (EU : decode_u pk = toF u).
    { unfold decode_u, u. apply P_Field.toF_eq. symmetry. apply Z.mod_mod. discriminate. }
    rewrite EU. clearbody u. pose proof (P_Mont.decode_scalar_range sk) as Hr.
    destruct Hu as [-> |[-> | [-> | [-> | ->] ] ] ].
    - now apply P_X25519b.low_0.
    - apply P_X25519b.low_u; try assumption. reflexivity.
    - apply P_X25519b.low_u; try assumption. apply P_Field.F_ext. vm_compute. reflexivity.
    - exact (P_Mont.low_8b _ Hr H8).
    - exact (P_Mont.low_8a _ Hr H8). }
  rewrite E. reflexivity.
Qed.
Print Assumptions C43_low_order.
Example C43_ex : x_dh Checked (repeat 0 32) (repeat 7 32) = Ok (repeat 0 32)
  /\ x_dh Checked (1 :: repeat 0 31) (repeat 7 32) = Ok (repeat 0 32)
  /\ x_dh Unchecked (le_encode 32 (2 ^ 256 - 20)) (repeat 7 32) = Ok (repeat 0 32)
  /\ x_dh Checked (h2b "e0eb7a7c3b41b8ae1656e3faf19fc46ada098deb9c32b1fd866205165f49b800") (repeat 7 32) = Ok (repeat 0 32).
Proof.
  split; [|split; [|split] ]; (apply C43_low_order; [reflexivity|now apply BaseFacts.bytesb_spec|reflexivity|now apply BaseFacts.bytesb_spec|]);
    vm_compute; auto 6.
Qed.
