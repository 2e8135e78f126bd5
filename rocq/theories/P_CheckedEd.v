(** Ed25519 in builds with overflow checks, for messages of any length. *)
From Verif Require Import BaseFacts M_Sha2 M_Curve25519 M_Ed25519 S_Field S_Edwards S_X25519 S_Ed25519 S_Sha2
  P_Field P_FieldInv P_Edwards P_Sha2 P_Sha2Stream P_X25519 P_X25519b P_Ge P_Ge2 P_EdTable P_EdBase P_EdDouble P_EdDecode P_Sc P_FeBytes P_Ed25519.
From Verif Require P_Checked.
Local Opaque ed_mul ed_add ed_B ed_zero ed_opp ed_encode H512.

Lemma parts_checked parts d : Forall bytes parts -> sha512_parts Checked parts = Ok d -> len (concat parts) < 2 ^ 61.
Proof.
  intros Hb E. unfold sha512_parts in E. rewrite updates_fold, bind_ok in E.
  destruct (Hist.hash_updates Sha512 Checked (hdefault Sha512) parts) as [s|] eqn:Es; [|discriminate E]. rewrite bind_ok in E.
  exact (P_Checked.sha2_lim Sha512 spec_sha512 Hist.is_sha512 parts s _ d Hb Es (repeat_length _ _) E).
Qed.
Lemma bind_Ok_inv {A B} (e : res A) (k : A -> res B) r : bind e k = Ok r -> exists a, e = Ok a /\ k a = Ok r.
Proof. destruct e as [a|]; intros H; [exists a; split; [exact eq_refl|exact H]|discriminate H]. Qed.

Lemma sign_lim msg sk sig : bytes sk -> length sk = 32%nat -> bytes msg -> ed_sign Checked msg sk = Ok sig -> len msg + 64 < 2 ^ 61.
Proof.
  intros Hb Hl Hm. unfold ed_sign. rewrite Hl. cbn [Nat.eqb assertb]. rewrite bind_ok.
  destruct (secret_ok Checked sk Hb Hl) as (c & -> & E & Hc & Lc & Dc & Hp & Lp). rewrite bind_ok. cbv zeta. rewrite E.
  destruct (base_ok Checked c (ed_prefix sk) _ Hc Lc Hp Dc (proj2 (secret_range sk))) as (h & -> & Rh). rewrite bind_ok.
  rewrite (p3_tobytes_ok Checked h _ Rh), bind_ok. fold (rfc_public_key sk).
  assert (La : length (rfc_public_key sk) = 32%nat) by apply enc_length.
  assert (Ha : bytes (rfc_public_key sk)) by apply enc_bytes.
  rewrite (skipn_app_eq 32 c (ed_prefix sk) Lc). intros H. apply bind_Ok_inv in H. destruct H as (d & Ed & H).
  assert (Fp : Forall bytes [ed_prefix sk; msg]) by (apply Forall_cons; [exact Hp|apply Forall_cons; [exact Hm|apply Forall_nil] ]).
  pose proof (parts_checked _ _ Fp Ed) as L1. rewrite (sha512_parts_ok Checked _ Fp L1) in Ed. injection Ed as <-.
  revert H. cbn [concat]. rewrite app_nil_r. set (nm := ed_prefix sk ++ msg).
  assert (Hnm : bytes nm) by (apply Forall_app; split; assumption).
  rewrite (sc_reduce_ok Checked (H512 nm) (H512_bytes nm) (H512_length nm Hnm)), bind_ok.
  change (repeat 0 64) with (repeat 0 32 ++ repeat 0 32).
  change 32%nat with (length (repeat 0 32)) at 3. rewrite (write_second (repeat 0 32) (repeat 0 32) (rfc_public_key sk)) by (rewrite La; reflexivity).
  rewrite bind_ok. set (r := le_decode (H512 nm)).
  assert (Hr : bytes (skipn 32 (H512 nm))) by (apply bytes_skipn; apply H512_bytes).
  pose proof (le_encode_bytes 32 (r mod L)) as Be. pose proof (le_encode_length 32 (r mod L)) as Le.
  destruct (base_ok Checked (le_encode 32 (r mod L)) (skipn 32 (H512 nm)) (r mod L) Be Le Hr (dec_modL r)) as (g & -> & Rg).
  { pose proof (modL_range r) as R. pose proof L_bounds as B. clear -R B. lia. }
  rewrite bind_ok, (p3_tobytes_ok Checked g _ Rg), bind_ok, ed_mul_modL. set (Rb := ed_encode (ed_mul r ed_B)).
  assert (LR : length Rb = 32%nat) by apply enc_length. assert (HR : bytes Rb) by apply enc_bytes.
  rewrite (write_first (repeat 0 32) (rfc_public_key sk) Rb) by (rewrite LR; reflexivity). rewrite bind_ok.
  assert (Hs : bytes (Rb ++ rfc_public_key sk)) by (apply Forall_app; split; assumption).
  intros H. apply bind_Ok_inv in H. destruct H as (d & Ed & _).
  apply parts_checked in Ed; [|apply Forall_cons; [exact Hs|apply Forall_cons; [exact Hm|apply Forall_nil] ] ].
  cbn [concat] in Ed. rewrite app_nil_r in Ed. unfold len in *. rewrite !app_length, La, LR in Ed. clear -Ed. lia.
Qed.
Lemma verify_sound msg sig pk v : bytes pk -> length pk = 32%nat -> bytes msg -> bytes sig ->
  ed_verify Checked msg sig pk = Ok v -> (v = true <-> ref10_verifies msg sig pk).
Proof.
  intros Hb Hl Hm Hs E.
  destruct (Z.lt_ge_cases (len msg + 64) (2 ^ 61)) as [Lm|Lm].
  { destruct (ed_verify_ok Checked msg sig pk Hb Hl Hm Lm Hs) as (w & Ew & Hw). rewrite E in Ew. injection Ew as ->. exact Hw. }
  revert E. unfold ed_verify. rewrite Hl. cbn [Nat.eqb assertb]. rewrite bind_ok.
  destruct (Nat.eqb_spec (length sig) 64) as [Ls|Ls]; cbn [negb orb].
  2: { intros E. injection E as <-. split; [discriminate|]. intros (H & _). exact (False_ind _ (Ls H)). }
  rewrite (top_bits sig Hs Ls). destruct (Z.ltb_spec (le_decode (skipn 32 sig)) (2 ^ 253)) as [HS|HS]; cbn [negb].
  2: { intros E. injection E as <-. split; [discriminate|]. intros (_ & A & H). cbv zeta in H.
       destruct H as (_ & H & _). exact (False_ind _ (Zlt_not_le _ _ H HS)). }
  destruct (from_bytes_negate_ok Checked pk Hb Hl) as (o & -> & Ho). rewrite bind_ok.
  destruct o as [a|].
  2: { intros E. injection E as <-. split; [discriminate|]. intros (_ & A & H). cbv zeta in H.
       destruct H as (H & _). exact (False_ind _ (Ho A H)). }
  cbv zeta. intros H. apply bind_Ok_inv in H. destruct H as (d & Ed & _). exfalso.
  assert (HR : bytes (firstn 32 sig)) by now apply bytes_firstn.
  apply parts_checked in Ed; [|apply Forall_cons; [exact HR|apply Forall_cons; [exact Hb|apply Forall_cons; [exact Hm|apply Forall_nil] ] ] ].
  cbn [concat] in Ed. rewrite app_nil_r in Ed. unfold len in *. rewrite !app_length, Hl, firstn_length, Ls in Ed.
  change (Nat.min 32 64) with 32%nat in Ed. clear -Ed Lm. lia.
Qed.
