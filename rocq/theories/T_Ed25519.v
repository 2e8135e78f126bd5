(** C44-C51 and the Ed25519 halves of C41 and C42. *)
From Coq Require Import String.
From Verif Require Import Base Hex M_Curve25519 M_Ed25519 S_Field S_Edwards S_X25519 S_Ed25519.
From Verif Require P_Ed25519 P_Sc P_EdDecode P_Ge2 P_Edwards P_Edwards BaseFacts P_Field.

(** C44: the two scalar operations return the canonical residues modulo L. *)
Theorem C44_sc_reduce : forall b s, length s = 64%nat -> bytes s ->
  exists out, sc_reduce b s = Ok out /\ length out = 64%nat /\ bytes (firstn 32 out) /\
    le_decode (firstn 32 out) = le_decode s mod L.
Proof.
  intros b s Hl Hb. exists (le_encode 32 (le_decode s mod L) ++ skipn 32 s)%list.
  pose proof (BaseFacts.le_encode_length 32 (le_decode s mod L)) as E.
  split; [exact (P_Sc.sc_reduce_ok b s Hb Hl)|]. split; [rewrite app_length, E, skipn_length, Hl; reflexivity|].
  rewrite (P_Ed25519.firstn_app_eq 32 _ _ E). split; [apply BaseFacts.le_encode_bytes|apply P_Ed25519.dec_modL].
Qed.
Print Assumptions C44_sc_reduce.
Theorem C44_sc_muladd : forall b x y z, length x = 32%nat -> bytes x -> length y = 32%nat -> bytes y ->
  length z = 32%nat -> bytes z ->
  exists out, sc_muladd b x y z = Ok out /\ length out = 32%nat /\ bytes out /\
    le_decode out = (le_decode x * le_decode y + le_decode z) mod L.
Proof.
  intros b x y z Lx Bx Ly By Lz Bz. exists (le_encode 32 ((le_decode x * le_decode y + le_decode z) mod L)).
  split; [|split; [apply BaseFacts.le_encode_length|split; [apply BaseFacts.le_encode_bytes|apply P_Ed25519.dec_modL]]].
  rewrite (P_Sc.sc_muladd_ok b x y z Bx By Bz) by lia. rewrite !firstn_all2 by lia. exact eq_refl.
Qed.
Print Assumptions C44_sc_muladd.
(** L itself is reduced to 0, 2^512 - 1 to a value below L. *)
Example C44_ex : length (le_encode 64 L) = 64%nat /\ bytes (le_encode 64 L) /\ le_decode (le_encode 64 L) mod L = 0 /\
  length (repeat 255 64) = 64%nat /\ bytes (repeat 255 64) /\ le_decode (repeat 255 64) = 2 ^ 512 - 1 /\
  L <= 2 ^ 512 - 1.
Proof.
  split; [reflexivity|]. split; [now apply BaseFacts.bytesb_spec|]. split; [reflexivity|]. split; [reflexivity|].
  split; [now apply BaseFacts.bytesb_spec|]. split; [reflexivity|discriminate].
Qed.

(** C45: [gen_pk] is the encoding of [s]B, s being the clamped half of SHA-512 of the secret key. *)
Theorem C45_gen_pk : forall b secret_key, length secret_key = 32%nat -> bytes secret_key ->
  ed_gen_pk b secret_key = Ok (rfc_public_key secret_key).
Proof. intros b sk Hl Hb. exact (P_Ed25519.ed_gen_pk_ok b sk Hb Hl). Qed.
Print Assumptions C45_gen_pk.
(** RFC 8032 section 7.1, second test: public key, signature and verification, computed by the VM. *)
Goal ed_gen_pk Checked (h2b "4ccd089b28ff96da9db6c346ec114e0f5b8a319f35aba624da8cf6ed4fb8a6fb")
  = Ok (h2b "3d4017c3e843895a92b70aa74d1b7ebc9c982ccf2ec4968cc0cd55f12af4660c").
Proof. vm_compute. reflexivity. Abort.
Goal ed_sign Checked [114] (h2b "4ccd089b28ff96da9db6c346ec114e0f5b8a319f35aba624da8cf6ed4fb8a6fb")
  = Ok (h2b "92a009a9f0d4cab8720e820b5f642540a2b27b5416503f8fb3762223ebdb69da" ++
        h2b "085ac1e43e15996e458f3613d0f11d8c387b2eaeb4302aeeb00d291612bb0c00")%list.
Proof. vm_compute. reflexivity. Abort.
Goal ed_verify Checked [114]
    (h2b "92a009a9f0d4cab8720e820b5f642540a2b27b5416503f8fb3762223ebdb69da" ++
     h2b "085ac1e43e15996e458f3613d0f11d8c387b2eaeb4302aeeb00d291612bb0c00")%list
    (h2b "3d4017c3e843895a92b70aa74d1b7ebc9c982ccf2ec4968cc0cd55f12af4660c") = Ok true.
Proof. vm_compute. reflexivity. Abort.
Goal ed_verify Checked [115]
    (h2b "92a009a9f0d4cab8720e820b5f642540a2b27b5416503f8fb3762223ebdb69da" ++
     h2b "085ac1e43e15996e458f3613d0f11d8c387b2eaeb4302aeeb00d291612bb0c00")%list
    (h2b "3d4017c3e843895a92b70aa74d1b7ebc9c982ccf2ec4968cc0cd55f12af4660c") = Ok false.
Proof. vm_compute. reflexivity. Abort.

(** C46: [sign] is the signature of RFC 8032, and its second half is below L. *)
Theorem C46_sign : forall b message secret_key,
  length secret_key = 32%nat -> bytes secret_key -> bytes message -> len message < 2 ^ 61 - 64 ->
  ed_sign b message secret_key = Ok (rfc_sign message secret_key).
Proof. intros b m sk Hl Hb Hm Lm. apply (P_Ed25519.ed_sign_ok b m sk Hb Hl Hm). clear -Lm. lia. Qed.
Print Assumptions C46_sign.
Theorem C46_sign_form : forall b message secret_key sig,
  length secret_key = 32%nat -> bytes secret_key -> bytes message -> len message < 2 ^ 61 - 64 ->
  ed_sign b message secret_key = Ok sig ->
  length sig = 64%nat /\ bytes sig /\ 0 <= le_decode (skipn 32 sig) < L.
Proof.
  intros b m sk sig Hl Hb Hm Lm. rewrite (C46_sign b m sk Hl Hb Hm Lm). intros E. injection E as <-.
  unfold rfc_sign. cbv zeta. set (R := ed_encode _). set (S := _ mod L).
  assert (LR : length R = 32%nat) by apply P_Ed25519.enc_length.
  split; [rewrite app_length, LR, BaseFacts.le_encode_length; exact eq_refl|].
  split; [apply Forall_app; split; [apply P_Ed25519.enc_bytes|apply BaseFacts.le_encode_bytes]|].
  rewrite (P_Ed25519.skipn_app_eq 32 R (le_encode 32 S) LR).
  assert (ES : le_decode (le_encode 32 S) = S) by apply P_Ed25519.dec_modL.
  rewrite ES. apply P_Ed25519.modL_range.
Qed.
Print Assumptions C46_sign_form.
Example C46_ex : exists sk m, length sk = 32%nat /\ bytes sk /\ bytes m /\ m <> [] /\ len m < 2 ^ 61 - 64.
Proof.
  exists (repeat 7 32), [114; 0; 255]. split; [reflexivity|]. split; [now apply BaseFacts.bytesb_spec|].
  split; [now apply BaseFacts.bytesb_spec|]. split; [discriminate|reflexivity].
Qed.

(** C47: what [sign] produces, [verify] accepts with the public key of [gen_pk]; the three may run in builds of
    either kind. *)
Theorem C47_sign_verify : forall b1 b2 b3 message secret_key,
  length secret_key = 32%nat -> bytes secret_key -> bytes message -> len message < 2 ^ 61 - 64 ->
  exists sig pk, ed_sign b1 message secret_key = Ok sig /\ ed_gen_pk b2 secret_key = Ok pk /\
    ed_verify b3 message sig pk = Ok true.
Proof.
  intros b1 b2 b3 m sk Hl Hb Hm Lm. exists (rfc_sign m sk), (rfc_public_key sk).
  split; [exact (C46_sign b1 m sk Hl Hb Hm Lm)|]. split; [exact (C45_gen_pk b2 sk Hl Hb)|].
  destruct (C46_sign_form b1 m sk _ Hl Hb Hm Lm (C46_sign b1 m sk Hl Hb Hm Lm)) as (_ & Bs & _).
  destruct (P_Ed25519.ed_verify_ok b3 m (rfc_sign m sk) (rfc_public_key sk)) as (v & E & Hv);
    [apply P_Ed25519.enc_bytes|apply P_Ed25519.enc_length|exact Hm|clear -Lm; lia|exact Bs|].
  rewrite E. apply f_equal. apply Hv. apply P_Ed25519.verifies_sign.
Qed.
Print Assumptions C47_sign_verify.

(** C48: the exact acceptance condition, [ref10_verifies]. *)
Theorem C48_verify : forall b message sig pk,
  length pk = 32%nat -> bytes pk -> bytes sig -> bytes message -> len message < 2 ^ 61 - 64 ->
  (ed_verify b message sig pk = Ok true <-> ref10_verifies message sig pk) /\
  (ed_verify b message sig pk = Ok false <-> ~ ref10_verifies message sig pk).
Proof.
  intros b m sig pk Hl Hb Bs Hm Lm.
  destruct (P_Ed25519.ed_verify_ok b m sig pk Hb Hl Hm ltac:(clear -Lm; lia) Bs) as (v & E & Hv).
  rewrite E. destruct v; (split; split); intros H; try discriminate H.
  - exact (proj1 Hv eq_refl).
  - exact eq_refl.
  - exact (False_ind _ (H (proj1 Hv eq_refl))).
  - exact (False_ind _ (Bool.diff_false_true (proj2 Hv H))).
  - intros G. exact (Bool.diff_false_true (proj2 Hv G)).
  - exact eq_refl.
Qed.
Print Assumptions C48_verify.
(** Compared with RFC 8032 (group equation without the cofactor): the same, for public keys that decode to a point of
    the subgroup of order L, except for the missing check S < L. *)
Theorem C48_verify_rfc : forall b message sig pk A,
  bytes pk -> bytes sig -> bytes message -> len message < 2 ^ 61 - 64 ->
  rfc_decodes pk A -> ed_mul L A = ed_zero ->
  (rfc_verifies message sig pk <-> ed_verify b message sig pk = Ok true /\ le_decode (skipn 32 sig) < L).
Proof.
  intros b m sig pk A Hb Bs Hm Lm DA HL.
  pose proof (P_Ed25519.ref10_rfc m sig pk A Bs Hb DA HL) as E.
  destruct (C48_verify b m sig pk (proj1 DA) Hb Bs Hm Lm) as [V _].
  split; intros H.
  - apply E in H. split; [apply V; apply H|apply H].
  - apply E. split; [apply V; apply H|apply H].
Qed.
Print Assumptions C48_verify_rfc.
(** In particular for every public key made by [gen_pk]. *)
Theorem C48_verify_gen_pk : forall b b' message sig secret_key pk,
  length secret_key = 32%nat -> bytes secret_key -> ed_gen_pk b' secret_key = Ok pk ->
  bytes sig -> bytes message -> len message < 2 ^ 61 - 64 -> le_decode (skipn 32 sig) < L ->
  (ed_verify b message sig pk = Ok true <-> rfc_verifies message sig pk).
Proof.
  intros b b' m sig sk pk Hl Hb Hpk Bs Hm Lm HS. rewrite (C45_gen_pk b' sk Hl Hb) in Hpk. injection Hpk as <-.
  pose proof (C48_verify_rfc b m sig (rfc_public_key sk) _ (P_Ed25519.enc_bytes _) Bs Hm Lm (P_Ed25519.pk_rfc sk)) as E.
  rewrite (P_Edwards.ed_mul_mul L (ed_secret_scalar sk) ed_B P_Edwards.on_curve_B), Z.mul_comm in E.
  specialize (E (P_Ed25519.ed_mul_L (ed_secret_scalar sk))). split; intros H.
  - apply E. split; [exact H|exact HS].
  - apply E in H. apply H.
Qed.
Print Assumptions C48_verify_gen_pk.
(** Both outcomes occur: see the two computed verifications above; here, a signature of the wrong length, and one
    accepted whatever the message. *)
Example C48_ex : ~ ref10_verifies [1] [] (repeat 1 32) /\
  forall m, ref10_verifies m ((1 :: repeat 0 31) ++ repeat 0 32) (1 :: repeat 0 31).
Proof.
  split; [intros (H & _); discriminate H|]. intros m.
  refine (P_Ed25519.identity_verifies m (1 :: repeat 0 31) 0 eq_refl eq_refl _ _); [discriminate|reflexivity].
Qed.

(** C49 is false: adding L to the second half of an accepted signature gives another accepted signature, as long as
    the sum stays below 2^253. *)
Theorem C49_malleable_refuted : forall b message sig pk,
  length pk = 32%nat -> bytes pk -> bytes sig -> bytes message -> len message < 2 ^ 61 - 64 ->
  ed_verify b message sig pk = Ok true -> le_decode (skipn 32 sig) + L < 2 ^ 253 ->
  let sig' := (firstn 32 sig ++ le_encode 32 (le_decode (skipn 32 sig) + L))%list in
  sig' <> sig /\ ed_verify b message sig' pk = Ok true.
Proof.
  intros b m sig pk Hl Hb Bs Hm Lm HV HL. cbv zeta.
  pose proof (BaseFacts.bytes_firstn 32 sig Bs) as BR.
  assert (Bs' : bytes (firstn 32 sig ++ le_encode 32 (le_decode (skipn 32 sig) + L)))
    by (apply Forall_app; split; [exact BR|apply BaseFacts.le_encode_bytes]).
  apply (C48_verify b m sig pk Hl Hb Bs Hm Lm) in HV.
  split; [|apply (C48_verify b m _ pk Hl Hb Bs' Hm Lm); exact (P_Ed25519.ref10_plus_L m sig pk Bs HV HL)].
  intros E. apply (f_equal (fun l => le_decode (skipn 32 l))) in E.
  assert (LR : length (firstn 32 sig) = 32%nat) by (rewrite firstn_length, (proj1 HV); exact eq_refl).
  rewrite (P_Ed25519.skipn_app_eq 32 _ _ LR) in E.
  pose proof (BaseFacts.le_decode_range _ (BaseFacts.bytes_skipn 32 sig Bs)) as R.
  pose proof P_Ed25519.L_bounds as B. set (S := le_decode (skipn 32 sig)) in *. clearbody S.
  rewrite P_Ed25519.dec_enc32 in E by (clear -R B HL; lia). clear -E B. lia.
Qed.
Print Assumptions C49_malleable_refuted.
(** The negation of the property, with both signatures in closed form. *)
Theorem C49_refuted : forall b, ~ (forall message sig pk,
  length pk = 32%nat -> bytes pk -> bytes sig -> bytes message -> len message < 2 ^ 61 - 64 ->
  ed_verify b message sig pk = Ok true -> le_decode (skipn 32 sig) < L).
Proof.
  intros b H. set (pk := 1 :: repeat 0 31). set (sig := (pk ++ le_encode 32 L)%list).
  assert (Hb : bytes pk) by now apply BaseFacts.bytesb_spec.
  assert (Bs : bytes sig) by (apply Forall_app; split; [exact Hb|apply BaseFacts.le_encode_bytes]).
  assert (C : le_decode (skipn 32 sig) < L); [|vm_compute in C; discriminate C].
  apply (H [] sig pk eq_refl Hb Bs (Forall_nil _) eq_refl).
  apply (C48_verify b [] sig pk eq_refl Hb Bs (Forall_nil _) eq_refl).
  refine (P_Ed25519.identity_verifies [] pk 1 eq_refl eq_refl _ _); [discriminate|reflexivity].
Qed.
Print Assumptions C49_refuted.

(** C50 is false: the string 01 00 .. 00 80 (x = 0 with the sign bit) and the string of y = p + 1 are not public keys
    of RFC 8032, yet [verify] accepts a signature for every message with them. *)
Theorem C50_refuted : forall b,
  let sig := ((1 :: repeat 0 31) ++ repeat 0 32)%list in
  let pk1 := le_encode 32 (2 ^ 255 + 1) in
  let pk2 := le_encode 32 (p + 1) in
  (forall P, ~ rfc_decodes pk1 P) /\ (forall P, ~ rfc_decodes pk2 P) /\
  forall message, bytes message -> len message < 2 ^ 61 - 64 ->
    ed_verify b message sig pk1 = Ok true /\ ed_verify b message sig pk2 = Ok true.
Proof.
  intros b. cbv zeta.
  split; [intros P; apply P_Ed25519.rfc_sign_one; reflexivity|].
  split; [intros P (_ & H & _); vm_compute in H; discriminate H|].
  intros m Hm Lm.
  assert (Bs : bytes ((1 :: repeat 0 31) ++ repeat 0 32)) by now apply BaseFacts.bytesb_spec.
  split; (apply C48_verify; [apply BaseFacts.le_encode_length|apply BaseFacts.le_encode_bytes|exact Bs|exact Hm|exact Lm|]).
  - refine (P_Ed25519.identity_verifies m (le_encode 32 (2 ^ 255 + 1)) 0 eq_refl eq_refl _ _); [discriminate|reflexivity].
  - refine (P_Ed25519.identity_verifies m (le_encode 32 (p + 1)) 0 eq_refl eq_refl _ _); [discriminate|reflexivity].
Qed.
Print Assumptions C50_refuted.
(** What remains: the public keys accepted (for some message and signature) though RFC 8032 rejects them all have
    y >= p or are one of the two strings with x = 0 and the sign bit; these are at most 40 strings. *)
Theorem C50_accepted_keys_partial : forall b message sig pk,
  length pk = 32%nat -> bytes pk -> bytes sig -> bytes message -> len message < 2 ^ 61 - 64 ->
  ed_verify b message sig pk = Ok true ->
  (exists P, rfc_decodes pk P) \/
  p <= le_decode pk mod 2 ^ 255 < 2 ^ 255 \/ le_decode pk = 2 ^ 255 + 1 \/ le_decode pk = 2 ^ 255 + (p - 1).
Proof.
  intros b m sig pk Hl Hb Bs Hm Lm HV. apply (C48_verify b m sig pk Hl Hb Bs Hm Lm) in HV.
  destruct HV as (_ & A & H). cbv zeta in H. destruct H as (LA & _).
  exact (P_Ed25519.lax_rfc_or pk A Hb LA).
Qed.
Print Assumptions C50_accepted_keys_partial.
Theorem C50_count_partial : forall pk, length pk = 32%nat -> bytes pk ->
  p <= le_decode pk mod 2 ^ 255 < 2 ^ 255 \/ le_decode pk = 2 ^ 255 + 1 \/ le_decode pk = 2 ^ 255 + (p - 1) ->
  In pk (map (le_encode 32) ([2 ^ 255 + 1; 2 ^ 255 + (p - 1)] ++
         map (fun i => p + Z.of_nat i) (seq 0 19) ++ map (fun i => 2 ^ 255 + p + Z.of_nat i) (seq 0 19))).
Proof.
  intros pk Hl Hb H. rewrite <- (BaseFacts.le_encode_decode pk Hb), Hl. apply in_map.
  pose proof (P_EdDecode.sign01 pk Hb Hl) as S. pose proof (Z.div_mod (le_decode pk) (2 ^ 255) ltac:(discriminate)) as D.
  set (n := le_decode pk) in *. clearbody n. apply in_or_app. destruct H as [H|[H|H]]; [right|left; left|left; right; left].
  - apply in_or_app. unfold p in *.
    destruct S as [S|S]; rewrite S in D; [left|right]; apply in_map_iff;
      exists (Z.to_nat (n mod 2 ^ 255 - (2 ^ 255 - 19))); rewrite in_seq; clear -D H; split; lia.
  - exact (eq_sym H).
  - exact (eq_sym H).
Qed.
Print Assumptions C50_count_partial.

(** C51: decoding. A string is rejected exactly when no x makes (x, y mod p) a point of the curve; otherwise the
    point, negated, is returned, as its encoding shows; for the encoding of a point it is that point. *)
Theorem C51_decode : forall b s, length s = 32%nat -> bytes s ->
  (from_bytes_negate b s = Ok None <-> forall x, ~ on_curve (x, toF (le_decode s mod 2 ^ 255))) /\
  (forall h, from_bytes_negate b s = Ok (Some h) ->
     exists A, lax_decodes s A /\ p3_tobytes b h = Ok (ed_encode (ed_opp A))).
Proof.
  intros b s Hl Hb. destruct (P_EdDecode.from_bytes_negate_ok b s Hb Hl) as (r & E & H). rewrite E.
  destruct r as [h|].
  - destruct H as (A & LA & RA). split.
    + split; [intros X; discriminate X|]. intros N. exfalso. destruct A as [x y]. destruct LA as (_ & C & Y & _). cbn [snd] in Y.
      apply (N x). rewrite <- Y. exact C.
    + intros h' Eh. injection Eh as <-. exists A. split; [exact LA|]. exact (P_Ge2.p3_tobytes_ok b h _ RA).
  - split; [|intros h X; discriminate X]. split; [|intros _; exact eq_refl].
    intros _ x C. destruct (P_Ed25519.lax_exists s x Hb Hl C) as (A & LA). exact (H A LA).
Qed.
Print Assumptions C51_decode.
Theorem C51_round_trip : forall b P, on_curve P ->
  exists h, from_bytes_negate b (ed_encode P) = Ok (Some h) /\ p3_tobytes b h = Ok (ed_encode (ed_opp P)).
Proof.
  intros b P C. pose proof (P_Ed25519.rfc_lax _ _ (P_Ed25519.rfc_of_encode P C)) as LP.
  destruct (P_EdDecode.from_bytes_negate_ok b (ed_encode P) (P_Ed25519.enc_bytes P) (P_Ed25519.enc_length P)) as (r & E & H).
  destruct r as [h|]; [|exact (False_ind _ (H P LP))]. destruct H as (A & LA & RA). exists h. split; [exact E|].
  rewrite (P_EdDecode.lax_unique _ A P (P_Ed25519.enc_bytes P) LA LP) in RA. exact (P_Ge2.p3_tobytes_ok b h _ RA).
Qed.
Print Assumptions C51_round_trip.
(** The canonical strings are the encodings of the points, one for each. *)
Theorem C51_canonical : forall s P, bytes s -> (rfc_decodes s P <-> on_curve P /\ ed_encode P = s).
Proof.
  intros s P Hb. split; intros H.
  - split; [apply H|exact (P_Ed25519.encode_of_rfc s P Hb H)].
  - destruct H as (C & <-). exact (P_Ed25519.rfc_of_encode P C).
Qed.
Print Assumptions C51_canonical.
Example C51_ex : on_curve ed_B /\ on_curve ed_zero.
Proof. split; [exact P_Edwards.on_curve_B|exact P_Edwards.on_curve_zero]. Qed.

(** C41 (Ed25519): both kinds of build agree on all inputs. *)
Theorem C41_ed25519_builds_agree : forall message sig pk sk,
  bytes message -> len message < 2 ^ 61 - 64 -> bytes sig -> bytes pk -> bytes sk ->
  ed_gen_pk Checked sk = ed_gen_pk Unchecked sk /\
  ed_sign Checked message sk = ed_sign Unchecked message sk /\
  ed_verify Checked message sig pk = ed_verify Unchecked message sig pk.
Proof.
  intros m sig pk sk Hm Lm Bs Bp Bk. split; [|split].
  - destruct (Nat.eq_dec 32 (length sk)) as [E|N].
    + rewrite !C45_gen_pk by (assumption || exact (eq_sym E)). exact eq_refl.
    + unfold ed_gen_pk. rewrite (proj2 (Nat.eqb_neq _ _) N). cbn [assertb bind]. exact eq_refl.
  - destruct (Nat.eq_dec 32 (length sk)) as [E|N].
    + rewrite (C46_sign Checked m sk (eq_sym E) Bk Hm Lm), (C46_sign Unchecked m sk (eq_sym E) Bk Hm Lm). exact eq_refl.
    + unfold ed_sign. rewrite (proj2 (Nat.eqb_neq _ _) N). cbn [assertb bind]. exact eq_refl.
  - destruct (Nat.eq_dec 32 (length pk)) as [E|N].
    + destruct (P_Ed25519.ed_verify_ok Checked m sig pk Bp (eq_sym E) Hm ltac:(clear -Lm; lia) Bs) as (v & -> & Hv).
      destruct (P_Ed25519.ed_verify_ok Unchecked m sig pk Bp (eq_sym E) Hm ltac:(clear -Lm; lia) Bs) as (w & -> & Hw).
      apply f_equal. apply Bool.eq_true_iff_eq. rewrite Hv, Hw. exact (iff_refl _).
    + unfold ed_verify. rewrite (proj2 (Nat.eqb_neq _ _) N). cbn [assertb bind]. exact eq_refl.
Qed.
Print Assumptions C41_ed25519_builds_agree.

(** C42 (Ed25519): panics exactly on a key that is not 32 bytes long; a signature of any length is rejected, not a
    panic. *)
Theorem C42_ed25519_panics : forall b message sig pk sk,
  bytes message -> len message < 2 ^ 61 - 64 -> bytes sig -> bytes pk -> bytes sk ->
  (ed_gen_pk b sk = Panic <-> length sk <> 32%nat) /\
  (ed_sign b message sk = Panic <-> length sk <> 32%nat) /\
  (ed_verify b message sig pk = Panic <-> length pk <> 32%nat).
Proof.
  intros b m sig pk sk Hm Lm Bs Bp Bk. split; [|split].
  - destruct (Nat.eq_dec 32 (length sk)) as [E|N].
    + rewrite C45_gen_pk by (assumption || exact (eq_sym E)). split; [discriminate|]. intros H. exact (False_ind _ (H (eq_sym E))).
    + unfold ed_gen_pk. rewrite (proj2 (Nat.eqb_neq _ _) N). cbn [assertb bind].
      split; intros _; [exact (fun H => N (eq_sym H))|exact eq_refl].
  - destruct (Nat.eq_dec 32 (length sk)) as [E|N].
    + rewrite (C46_sign b m sk (eq_sym E) Bk Hm Lm). split; [discriminate|]. intros H. exact (False_ind _ (H (eq_sym E))).
    + unfold ed_sign. rewrite (proj2 (Nat.eqb_neq _ _) N). cbn [assertb bind].
      split; intros _; [exact (fun H => N (eq_sym H))|exact eq_refl].
  - destruct (Nat.eq_dec 32 (length pk)) as [E|N].
    + destruct (P_Ed25519.ed_verify_ok b m sig pk Bp (eq_sym E) Hm ltac:(clear -Lm; lia) Bs) as (v & -> & _).
      split; [discriminate|]. intros H. exact (False_ind _ (H (eq_sym E))).
    + unfold ed_verify. rewrite (proj2 (Nat.eqb_neq _ _) N). cbn [assertb bind].
      split; intros _; [exact (fun H => N (eq_sym H))|exact eq_refl].
Qed.
Print Assumptions C42_ed25519_panics.
Example C42_ed_ex : ed_gen_pk Checked (repeat 1 31) = Panic /\ ed_sign Unchecked [] (repeat 1 33) = Panic /\
  ed_verify Checked [] (repeat 1 64) [] = Panic /\ ed_verify Checked [] [] (repeat 1 32) = Ok false.
Proof. repeat split. Qed.
