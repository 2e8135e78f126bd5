(** Ed25519 with overflow checks off, for messages of every length: the proofs of [P_Ed25519] with the hash whose length field
    is taken modulo 2^64. *)
From Verif Require Import BaseFacts M_Sha2 M_Curve25519 M_Ed25519 S_Field S_Edwards S_X25519 S_Ed25519 S_Sha2 S_Long
  P_Field P_FieldInv P_Edwards P_Sha2 P_Sha2Stream P_X25519 P_X25519b P_Ge P_Ge2 P_EdTable P_EdBase P_EdDouble P_EdDecode P_Sc P_FeBytes P_Ed25519.
From Verif Require Hist.
Local Opaque ed_mul ed_add ed_B ed_zero ed_opp ed_encode H512.

Lemma H512w_bytes m : bytes (H512w m). Proof. apply SHA_bytes. Qed.
Lemma H512w_length m : bytes m -> length (H512w m) = 64%nat.
Proof. intros Hm. unfold H512w, SHAw. apply (SHA_length P512 SHA512 spec_sha512 matches_sha512). exact Hm. Qed.
Lemma H512w_short m : len m < 2 ^ 61 -> H512w m = H512 m.
Proof. exact (SHA_eq spec_sha512 m). Qed.
Lemma sha512_parts_w parts : Forall bytes parts -> sha512_parts Unchecked parts = Ok (H512w (concat parts)).
Proof.
  intros Hb. unfold sha512_parts. rewrite updates_fold.
  destruct (sha2_long Sha512 spec_sha512 Hist.is_sha512 parts (repeat 0 (DIGEST_SIZE Sha512)) Hb (repeat_length _ _)) as (_ & _ & s & E & W).
  rewrite bind_ok, E, bind_ok. exact W.
Qed.
Local Opaque H512w.

Lemma ed_sign_long msg sk : bytes sk -> length sk = 32%nat -> bytes msg ->
  ed_sign Unchecked msg sk = Ok (long_sign msg sk).
Proof.
  intros Hb Hl Hm. unfold ed_sign. rewrite Hl. cbn [Nat.eqb assertb]. rewrite bind_ok.
  destruct (secret_ok Unchecked sk Hb Hl) as (c & -> & E & Hc & Lc & Dc & Hp & Lp). rewrite bind_ok. cbv zeta. rewrite E.
  destruct (base_ok Unchecked c (ed_prefix sk) _ Hc Lc Hp Dc (proj2 (secret_range sk))) as (h & -> & Rh). rewrite bind_ok.
  rewrite (p3_tobytes_ok Unchecked h _ Rh), bind_ok. fold (rfc_public_key sk).
  assert (La : length (rfc_public_key sk) = 32%nat) by apply enc_length.
  assert (Ha : bytes (rfc_public_key sk)) by apply enc_bytes.
  rewrite (skipn_app_eq 32 c (ed_prefix sk) Lc).
  rewrite (sha512_parts_w [ed_prefix sk; msg]);
    [|apply Forall_cons; [exact Hp|apply Forall_cons; [exact Hm|apply Forall_nil]]].
  cbn [concat]. rewrite app_nil_r, bind_ok. set (nm := ed_prefix sk ++ msg).
  assert (Hnm : bytes nm) by (apply Forall_app; split; assumption).
  rewrite (sc_reduce_ok Unchecked (H512w nm) (H512w_bytes nm) (H512w_length nm Hnm)), bind_ok.
  change (repeat 0 64) with (repeat 0 32 ++ repeat 0 32).
  change 32%nat with (length (repeat 0 32)) at 3. rewrite (write_second (repeat 0 32) (repeat 0 32) (rfc_public_key sk)) by (rewrite La; reflexivity).
  rewrite bind_ok. set (r := le_decode (H512w nm)).
  assert (Hr : bytes (skipn 32 (H512w nm))) by (apply bytes_skipn; apply H512w_bytes).
  pose proof (le_encode_bytes 32 (r mod L)) as Be. pose proof (le_encode_length 32 (r mod L)) as Le.
  destruct (base_ok Unchecked (le_encode 32 (r mod L)) (skipn 32 (H512w nm)) (r mod L) Be Le Hr (dec_modL r)) as (g & -> & Rg).
  { pose proof (modL_range r) as R. pose proof L_bounds as B. clear -R B. lia. }
  rewrite bind_ok, (p3_tobytes_ok Unchecked g _ Rg), bind_ok, ed_mul_modL. set (Rb := ed_encode (ed_mul r ed_B)).
  assert (LR : length Rb = 32%nat) by apply enc_length. assert (HR : bytes Rb) by apply enc_bytes.
  rewrite (write_first (repeat 0 32) (rfc_public_key sk) Rb) by (rewrite LR; reflexivity). rewrite bind_ok.
  assert (Hs : bytes (Rb ++ rfc_public_key sk)) by (apply Forall_app; split; assumption).
  rewrite (sha512_parts_w [Rb ++ rfc_public_key sk; msg]);
    [|apply Forall_cons; [exact Hs|apply Forall_cons; [exact Hm|apply Forall_nil]]].
  cbn [concat]. rewrite app_nil_r, bind_ok, <- app_assoc. set (km := Rb ++ rfc_public_key sk ++ msg).
  assert (Hkm : bytes km) by (apply Forall_app; split; [exact HR|apply Forall_app; split; assumption]).
  rewrite (sc_reduce_ok Unchecked (H512w km) (H512w_bytes km) (H512w_length km Hkm)), bind_ok. set (k := le_decode (H512w km)).
  pose proof (le_encode_bytes 32 (k mod L)) as Bk. pose proof (le_encode_length 32 (k mod L)) as Lk.
  rewrite sc_muladd_ok.
  2: { apply Forall_app; split; [exact Bk|apply bytes_skipn; apply H512w_bytes]. }
  2: { apply Forall_app; split; assumption. }
  2: { apply Forall_app; split; [exact Be|exact Hr]. }
  2-4: rewrite app_length, ?Lk, ?Lc, ?Le; clear; lia.
  rewrite bind_ok, (firstn_app_eq 32 _ _ Lk), (firstn_app_eq 32 _ _ Lc), (firstn_app_eq 32 _ _ Le), !dec_modL, Dc, S_mod.
  rewrite <- LR at 1. rewrite (write_second Rb (rfc_public_key sk)) by (rewrite La, le_encode_length; reflexivity).
  exact eq_refl.
Qed.

Lemma ed_verify_long msg sig pk : bytes pk -> length pk = 32%nat -> bytes msg -> bytes sig ->
  exists v, ed_verify Unchecked msg sig pk = Ok v /\ (v = true <-> long_verifies msg sig pk).
Proof.
  intros Hb Hl Hm Hs. unfold ed_verify. rewrite Hl. cbn [Nat.eqb assertb]. rewrite bind_ok.
  destruct (Nat.eqb_spec (length sig) 64) as [Ls|Ls]; cbn [negb orb].
  2: { exists false. split; [reflexivity|]. split; [discriminate|]. intros (H & _). exact (False_ind _ (Ls H)). }
  rewrite (top_bits sig Hs Ls). destruct (Z.ltb_spec (le_decode (skipn 32 sig)) (2 ^ 253)) as [HS|HS]; cbn [negb].
  2: { exists false. split; [reflexivity|]. split; [discriminate|]. intros (_ & A & H). cbv zeta in H.
       destruct H as (_ & H & _). exact (False_ind _ (Zlt_not_le _ _ H HS)). }
  destruct (from_bytes_negate_ok Unchecked pk Hb Hl) as (o & -> & Ho). rewrite bind_ok.
  destruct o as [a|].
  2: { exists false. split; [reflexivity|]. split; [discriminate|]. intros (_ & A & H). cbv zeta in H.
       destruct H as (H & _). exact (False_ind _ (Ho A H)). }
  destruct Ho as (A & LA & RA). cbv zeta. set (R := firstn 32 sig). set (S := skipn 32 sig) in *.
  assert (HR : bytes R) by now apply bytes_firstn. assert (HSb : bytes S) by now apply bytes_skipn.
  assert (LR : length R = 32%nat) by (unfold R; rewrite firstn_length, Ls; reflexivity).
  assert (LS : length S = 32%nat) by (unfold S; rewrite skipn_length, Ls; reflexivity).
  rewrite (sha512_parts_w [R; pk; msg]);
    [|apply Forall_cons; [exact HR|apply Forall_cons; [exact Hb|apply Forall_cons; [exact Hm|apply Forall_nil]]]].
  cbn [concat]. rewrite app_nil_r, bind_ok. set (km := R ++ pk ++ msg).
  assert (Hkm : bytes km) by (apply Forall_app; split; [exact HR|apply Forall_app; split; assumption]).
  rewrite (sc_reduce_ok Unchecked (H512w km) (H512w_bytes km) (H512w_length km Hkm)), bind_ok. set (k := le_decode (H512w km)).
  pose proof (le_encode_bytes 32 (k mod L)) as Bk. pose proof (le_encode_length 32 (k mod L)) as Lk.
  assert (CA : on_curve A) by apply LA.
  destruct (from_double_scalarmult_ok Unchecked (le_encode 32 (k mod L) ++ skipn 32 (H512w km)) a (ed_opp A) S) as (r & -> & Rr);
    [|rewrite app_length, Lk; clear; lia| |exact HSb|exact LS|exact HS|exact (on_curve_opp A CA)|exact RA|].
  { apply Forall_app; split; [exact Bk|apply bytes_skipn; apply H512w_bytes]. }
  { rewrite (firstn_app_eq 32 _ _ Lk), dec_modL. pose proof (modL_range k) as Rk. pose proof L_bounds as B. clear -Rk B. lia. }
  rewrite (firstn_app_eq 32 _ _ Lk), dec_modL in Rr.
  rewrite bind_ok, (p2_to_bytes_ok Unchecked r _ Rr), bind_ok. set (E := ed_encode _).
  destruct (verify_32_ok Unchecked E R) as (v & -> & Hv);
    [apply enc_bytes|exact HR|rewrite LR; apply enc_length|].
  rewrite bind_ok. exists (v =? 0). split; [reflexivity|]. rewrite Z.eqb_eq, Hv.
  assert (EE : E = ed_encode (ed_add (ed_mul (le_decode S) ed_B) (ed_opp (ed_mul (k mod L) A)))).
  { unfold E. apply f_equal. rewrite (ed_mul_opp_r _ A CA). apply ed_add_comm. }
  split.
  - intros H. split; [exact Ls|]. exists A. cbv zeta. split; [exact LA|]. split; [exact HS|]. exact (eq_trans (eq_sym EE) H).
  - intros (_ & A' & H). cbv zeta in H. destruct H as (LA' & _ & H).
    rewrite (lax_unique pk A' A Hb LA' LA) in H. exact (eq_trans EE H).
Qed.

Local Opaque rfc_public_key ed_secret_scalar.
Lemma verifies_long_sign msg sk : long_verifies msg (long_sign msg sk) (rfc_public_key sk).
Proof.
  unfold long_sign. cbv zeta. set (r := le_decode (H512w (ed_prefix sk ++ msg))). set (Rb := ed_encode (ed_mul r ed_B)).
  set (k := le_decode (H512w (Rb ++ rfc_public_key sk ++ msg))). set (S := (r + k * ed_secret_scalar sk) mod L).
  assert (LR : length Rb = 32%nat) by apply enc_length.
  split; [rewrite app_length, LR, le_encode_length; reflexivity|].
  exists (ed_mul (ed_secret_scalar sk) ed_B). cbv zeta.
  rewrite (firstn_app_eq 32 Rb (le_encode 32 S) LR), (skipn_app_eq 32 Rb (le_encode 32 S) LR).
  split; [exact (rfc_lax _ _ (pk_rfc sk))|].
  assert (ES : le_decode (le_encode 32 S) = S) by apply dec_modL. rewrite ES.
  split; [pose proof (modL_range (r + k * ed_secret_scalar sk)) as R; fold S in R; pose proof L_bounds as B; clear -R B; lia|].
  unfold Rb. apply f_equal. apply sign_equation.
Qed.
