(** The trace of Ed25519 signing for messages of every length, including the lengths at which a build with overflow checks panics. *)
From Verif Require Import BaseFacts M_Sha2 M_Curve25519 M_Ed25519 S_Field S_Edwards S_X25519 S_Ed25519 S_Sha2
  P_Edwards P_Sha2 P_Sha2Stream P_Ge P_Ge2 P_EdBase P_Sc P_Ed25519 P_CheckedEd P_Long
  M_CtBase M_CtHash M_CtCurve P_CtBase P_CtHash P_CtCurve.
From Verif Require P_CtAead.
Local Opaque ed_mul ed_add ed_B ed_zero ed_opp ed_encode H512 S_Long.H512w.
Local Opaque c_clamp_ed c_hash_wrapper c_sha512_parts c_p3_tobytes c_sc_reduce c_sc_muladd c_from_scalarmult_base.
Local Opaque clamp_ed sha512 sha512_parts p3_tobytes sc_reduce sc_muladd from_scalarmult_base.

Lemma tot_rel {A B} (R : A -> B -> Prop) m1 m2 : wrel R m1 m2 -> (exists a, result m1 = Ok a) -> (exists a, result m2 = Ok a) -> rel R m1 m2.
Proof. intros W (a & E) (b & E'). exact (wrel_rel R m1 m2 a b W E E'). Qed.
Lemma parts_form b parts d : Forall bytes parts -> sha512_parts b parts = Ok d -> bytes d /\ length d = 64%nat.
Proof.
  intros Hb E. assert (Hc : bytes (concat parts)) by now apply bytes_concat. destruct b.
  - pose proof (parts_checked parts d Hb E) as Ll. rewrite (sha512_parts_ok Checked parts Hb Ll) in E. injection E as <-.
    split; [apply H512_bytes|apply H512_length; exact Hc].
  - rewrite (sha512_parts_w parts Hb) in E. injection E as <-. split; [apply H512w_bytes|apply H512w_length; exact Hc].
Qed.
(** 64 bytes whose first half is below 2^255. *)
Definition good (s : list Z) : Prop := exists c r, s = c ++ r /\ bytes c /\ length c = 32%nat /\ bytes r /\ length r = 32%nat /\ le_decode c < 2 ^ 255.
Lemma good_az b sk : bytes sk -> length sk = 32%nat -> exists h, result (c_hash_wrapper Zops P512 SHA512 b sk) = Ok h /\ good (c_clamp_ed Zops h).
Proof.
  intros Hb Hl. rewrite (simi_res _ _ (sim_sha512 b sk)).
  destruct (secret_ok b sk Hb Hl) as (c & E & Ec & Hc & Lc & Dc & Hp & Lp). exists (H512 sk). split; [exact E|].
  rewrite c_clamp_ed_eq, Ec. exists c, (ed_prefix sk). repeat (split; [assumption || exact eq_refl|]).
  rewrite Dc. exact (proj2 (secret_range sk)).
Qed.
Lemma tot_base b s : good s -> exists h Q, result (c_from_scalarmult_base Zops b s) = Ok h /\ p3_rep (ofP3 h) Q.
Proof.
  intros (c & r & -> & Hc & Lc & Hr & _ & Hn). destruct (base_ok b c r _ Hc Lc Hr eq_refl Hn) as (h & E & Rh).
  pose proof (sim_from_scalarmult_base b (c ++ r)) as S. rewrite E in S. unfold sim in S. unfold result.
  destruct (snd (c_from_scalarmult_base Zops b (c ++ r))) as [a|]; [|discriminate S]. injection S as <-.
  exists a, (ed_mul (le_decode c) ed_B). split; [exact eq_refl|exact Rh].
Qed.
Lemma tot_tobytes b h Q : p3_rep (ofP3 h) Q -> result (c_p3_tobytes Zops b h) = Ok (ed_encode Q).
Proof. intros H. rewrite (simi_res _ _ (sim_p3_tobytes b h)). exact (p3_tobytes_ok b _ _ H). Qed.
Lemma tot_reduce b d : bytes d -> length d = 64%nat -> exists s, result (c_sc_reduce Zops b d) = Ok s /\ good s.
Proof.
  intros Hd Ld. rewrite (simi_res _ _ (sim_sc_reduce b d)), (sc_reduce_ok b d Hd Ld). eexists. split; [exact eq_refl|].
  exists (le_encode 32 (le_decode d mod L)), (skipn 32 d). split; [exact eq_refl|]. split; [apply le_encode_bytes|].
  split; [apply le_encode_length|]. split; [now apply bytes_skipn|]. split; [rewrite skipn_length, Ld; exact eq_refl|].
  rewrite dec_modL. pose proof (modL_range (le_decode d)) as R. pose proof L_bounds as B. clear -R B. lia.
Qed.
Lemma tot_muladd b x y z : good x -> good y -> good z -> exists s, result (c_sc_muladd Zops b x y z) = Ok s.
Proof.
  intros (c & r & -> & Hc & Lc & Hr & Lr & _) (c' & r' & -> & Hc' & Lc' & Hr' & Lr' & _) (c2 & r2 & -> & Hc2 & Lc2 & Hr2 & Lr2 & _).
  rewrite (simi_res _ _ (sim_sc_muladd b _ _ _)), sc_muladd_ok;
    [eexists; exact eq_refl|..]; try (apply Forall_app; split; assumption); rewrite app_length; clear -Lc Lc' Lc2; lia.
Qed.
Lemma rel_sha512_parts b l1 l2 : Forall2 leq l1 l2 -> rel leq (c_sha512_parts Zops b l1) (c_sha512_parts Zops b l2).
Proof.
  intros H. Local Transparent c_sha512_parts. unfold c_sha512_parts. Local Opaque c_sha512_parts.
  eapply rel_bind; [apply rel_updates; [exact H|apply Rp_refl]|].
  intros h1 h2 Hh. apply rel_hwrite_digest; [exact Hh|exact eq_refl].
Qed.
Lemma tot_exists {A} (m : M A) (P : A -> Prop) : (exists a, result m = Ok a /\ P a) -> exists a, result m = Ok a.
Proof. intros (a & E & _). now exists a. Qed.
Lemma the_value {A} (m : M A) (P : A -> Prop) a : (exists a, result m = Ok a /\ P a) -> result m = Ok a -> P a.
Proof. intros (a' & E & H) E'. rewrite E in E'. injection E' as <-. exact H. Qed.
Lemma write_form {A} (d s : list A) off r : result (c_write_slice d off s) = Ok r -> length r = length d.
Proof.
  rewrite (simi_res _ _ (sim_write_slice d off s)). unfold write_slice. destruct (off + length s <=? length d)%nat eqn:E; [|discriminate].
  intros H. injection H as <-. apply Nat.leb_le in E. rewrite !app_length, firstn_length, skipn_length. clear -E. lia.
Qed.
Lemma write_bytes (d s : list Z) off r : bytes d -> bytes s -> result (c_write_slice d off s) = Ok r -> bytes r.
Proof.
  intros Hd Hs. rewrite (simi_res _ _ (sim_write_slice d off s)). unfold write_slice. destruct (off + length s <=? length d)%nat eqn:E; [|discriminate].
  intros H. injection H as <-. rewrite !bytes_app. auto using bytes_firstn, bytes_skipn.
Qed.

Lemma rel_ed_sign b m1 m2 s1 s2 : bytes m1 -> bytes m2 -> leq m1 m2 -> bytes s1 -> bytes s2 -> length s1 = 32%nat -> length s2 = 32%nat ->
  rel leq (c_ed_sign Zops b m1 s1) (c_ed_sign Zops b m2 s2).
Proof.
  intros Bm1 Bm2 Hm Bs1 Bs2 Ls1 Ls2. unfold c_ed_sign.
  eapply rel_bind; [apply rel_assert; rewrite Ls1, Ls2; exact eq_refl|intros _ _ _].
  eapply P_CtAead.rel_bind_ok; [apply rel_hash_wrapper; exact (eq_trans Ls1 (eq_sym Ls2))|intros az1 az2 Ha0 E1 E2]. cbv zeta.
  pose proof (the_value _ _ _ (good_az b s1 Bs1 Ls1) E1) as G1. pose proof (the_value _ _ _ (good_az b s2 Bs2 Ls2) E2) as G2.
  cbv beta in G1, G2. pose proof (clamp_ed_leq _ _ Ha0) as Ha. clear Ha0 E1 E2. revert Ha G1 G2.
  generalize (c_clamp_ed Zops az1), (c_clamp_ed Zops az2). clear az1 az2. intros az1 az2 Ha G1 G2.
  destruct (tot_base b az1 G1) as (h1 & Q1 & Eh1 & Rh1). destruct (tot_base b az2 G2) as (h2 & Q2 & Eh2 & Rh2).
  eapply P_CtAead.rel_bind_ok; [apply tot_rel; [apply wrel_from_scalarmult_base, Ha|now exists h1|now exists h2]|intros x1 x2 _ F1 F2].
  rewrite F1 in Eh1. rewrite F2 in Eh2. injection Eh1 as ->. injection Eh2 as ->. clear F1 F2.
  pose proof (tot_tobytes b h1 Q1 Rh1) as T1. pose proof (tot_tobytes b h2 Q2 Rh2) as T2.
  eapply P_CtAead.rel_bind_ok; [apply tot_rel; [apply wrel_p3_tobytes|eexists; exact T1|eexists; exact T2]|intros pk1 pk2 Hpk F1 F2].
  rewrite F1 in T1. rewrite F2 in T2. injection T1 as ->. injection T2 as ->. clear F1 F2.
  pose proof (enc_bytes Q1) as Bp1. pose proof (enc_bytes Q2) as Bp2. revert Hpk Bp1 Bp2. generalize (ed_encode Q1), (ed_encode Q2).
  intros pk1 pk2 Hpk Bp1 Bp2. clear h1 h2 Q1 Q2 Rh1 Rh2.
  assert (Fp : forall az m, good az -> bytes m -> Forall bytes [skipn 32 az; m]).
  { intros az m (c & r & -> & Hc & Lc & Hr & _) H. rewrite (skipn_app_eq 32 c r Lc). repeat constructor; assumption. }
  eapply P_CtAead.rel_bind_ok; [apply rel_sha512_parts; repeat constructor; [now apply skipn_leq|exact Hm]|intros n1 n2 Hn F1 F2].
  rewrite (simi_res _ _ (sim_sha512_parts b _)) in F1. rewrite (simi_res _ _ (sim_sha512_parts b _)) in F2.
  apply (parts_form b _ _ (Fp az1 m1 G1 Bm1)) in F1. apply (parts_form b _ _ (Fp az2 m2 G2 Bm2)) in F2.
  destruct F1 as [Bn1 Ln1], F2 as [Bn2 Ln2].
  eapply P_CtAead.rel_bind_ok;
    [apply tot_rel; [apply wrel_sc_reduce, Hn|exact (tot_exists _ _ (tot_reduce b n1 Bn1 Ln1))|exact (tot_exists _ _ (tot_reduce b n2 Bn2 Ln2))]|].
  intros q1 q2 Hq F1 F2. apply (the_value _ _ _ (tot_reduce b n1 Bn1 Ln1)) in F1. apply (the_value _ _ _ (tot_reduce b n2 Bn2 Ln2)) in F2.
  rename F1 into Gq1, F2 into Gq2.
  eapply P_CtAead.rel_bind_ok; [apply rel_write_slice; [exact eq_refl|reflexivity|exact Hpk]|intros g1 g2 Hg F1 F2].
  apply write_bytes in F1; [|apply bytes_repeat; split; [discriminate|reflexivity]|exact Bp1].
  apply write_bytes in F2; [|apply bytes_repeat; split; [discriminate|reflexivity]|exact Bp2]. rename F1 into Bg1, F2 into Bg2.
  destruct (tot_base b q1 Gq1) as (h1 & Q1 & Eh1 & Rh1). destruct (tot_base b q2 Gq2) as (h2 & Q2 & Eh2 & Rh2).
  eapply P_CtAead.rel_bind_ok; [apply tot_rel; [apply wrel_from_scalarmult_base, Hq|now exists h1|now exists h2]|intros x1 x2 _ F1 F2].
  rewrite F1 in Eh1. rewrite F2 in Eh2. injection Eh1 as ->. injection Eh2 as ->. clear F1 F2.
  pose proof (tot_tobytes b h1 Q1 Rh1) as T1. pose proof (tot_tobytes b h2 Q2 Rh2) as T2.
  eapply P_CtAead.rel_bind_ok; [apply tot_rel; [apply wrel_p3_tobytes|eexists; exact T1|eexists; exact T2]|intros rb1 rb2 Hrb F1 F2].
  rewrite F1 in T1. rewrite F2 in T2. injection T1 as ->. injection T2 as ->. clear F1 F2.
  pose proof (enc_bytes Q1) as Br1. pose proof (enc_bytes Q2) as Br2. revert Hrb Br1 Br2. generalize (ed_encode Q1), (ed_encode Q2).
  intros rb1 rb2 Hrb Br1 Br2. clear h1 h2 Q1 Q2 Rh1 Rh2.
  eapply P_CtAead.rel_bind_ok; [apply rel_write_slice; [exact Hg|reflexivity|exact Hrb]|intros k1 k2 Hk F1 F2].
  apply write_bytes in F1; [|exact Bg1|exact Br1]. apply write_bytes in F2; [|exact Bg2|exact Br2].
  assert (Fk : forall k m, bytes k -> bytes m -> Forall bytes [k; m]) by (intros; repeat constructor; assumption).
  pose proof (Fk k1 m1 F1 Bm1) as P1. pose proof (Fk k2 m2 F2 Bm2) as P2. clear F1 F2.
  eapply P_CtAead.rel_bind_ok; [apply rel_sha512_parts; repeat constructor; [exact Hk|exact Hm]|intros e1 e2 He F1 F2].
  rewrite (simi_res _ _ (sim_sha512_parts b _)) in F1. rewrite (simi_res _ _ (sim_sha512_parts b _)) in F2.
  apply (parts_form b _ _ P1) in F1. apply (parts_form b _ _ P2) in F2. destruct F1 as [Be1 Le1], F2 as [Be2 Le2].
  eapply P_CtAead.rel_bind_ok;
    [apply tot_rel; [apply wrel_sc_reduce, He|exact (tot_exists _ _ (tot_reduce b e1 Be1 Le1))|exact (tot_exists _ _ (tot_reduce b e2 Be2 Le2))]|].
  intros j1 j2 Hj F1 F2. apply (the_value _ _ _ (tot_reduce b e1 Be1 Le1)) in F1. apply (the_value _ _ _ (tot_reduce b e2 Be2 Le2)) in F2.
  eapply rel_bind; [apply tot_rel; [apply wrel_sc_muladd; assumption|apply tot_muladd; assumption|apply tot_muladd; assumption]|].
  intros w1 w2 Hw. apply rel_write_slice; [exact Hk|reflexivity|exact Hw].
Qed.
