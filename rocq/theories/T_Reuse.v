(** What the secret of the authenticator is worth, and so what the reuse of a nonce costs (C60 and C61 say how much of that secret
    two messages under one nonce reveal). *)
From Coq Require Import String.
From Verif Require Import Base Hex M_Aes M_Gcm M_Poly1305 S_Gcm S_ChaCha S_PolyLazy T_Gcm T_Forge.
From Verif Require BaseFacts P_Gcm P_Ccp T_Ccp T_PolyExact.

Lemma xorl_solve : forall m' m c c', length c = length m -> length c' = length m' -> (length m' <= length m)%nat ->
  xorl c c' = xorl m m' -> c' = xorl m' (xorl c m).
Proof.
  induction m' as [|x m' IH]; intros [|y m] [|z c] [|w c']; cbn [length]; intros L1 L2 L3 X; try lia; try reflexivity; try discriminate.
  cbn [xorl zipwith] in *. injection X as X0 X. f_equal.
  - apply Z.bits_inj. intros n. rewrite !Z.lxor_spec. apply (f_equal (fun v => Z.testbit v n)) in X0. rewrite !Z.lxor_spec in X0.
    destruct (Z.testbit z n), (Z.testbit w n), (Z.testbit y n), (Z.testbit x n); cbn in *; congruence.
  - apply IH; lia || exact X.
Qed.

Lemma xorl_eq_length x y : length x = length y -> length (xorl x y) = length x.
Proof. intros H. rewrite BaseFacts.xorl_length. lia. Qed.

Lemma xorl_cancel3 : forall j g1 g2, length j = length g1 -> length g1 = length g2 -> xorl (xorl j g1) (xorl g1 g2) = xorl j g2.
Proof.
  induction j as [|x j IH]; intros [|y g1] [|z g2]; cbn [length]; intros L1 L2; try discriminate; [reflexivity|].
  cbn [xorl zipwith]. f_equal; [|apply (IH g1 g2); lia].
  now rewrite Z.lxor_assoc, <- (Z.lxor_assoc y y z), Z.lxor_nilpotent, Z.lxor_0_l.
Qed.

(** ** C89.  Whoever has seen one message of AES-GCM encrypted under a nonce and knows the encryption of the zero block can have any other data
    and any message that is not longer accepted under that nonce, from the public values only. *)
Theorem C89_gcm_hash_key_forges : forall E k, block_cipher E k -> forall b nonce data msg out ct tag,
  bytes nonce -> bytes data -> bytes msg -> gcm_encrypt E b k msg nonce data out = Ok (ct, tag) ->
  forall data' msg' out', gcm_data data' -> bytes msg' -> (length msg' <= length msg)%nat -> length out' = length msg' ->
  let H := bc_permute E k (repeat 0 16) in
  let ct' := xorl msg' (xorl ct msg) in
  let tag' := xorl tag (xorl (GHASH H (ghash_input data ct)) (GHASH H (ghash_input data' ct'))) in
  gcm_decrypt E b k ct' nonce data' tag' out' = Ok (msg', true).
Proof.
  intros E k HE b nonce data msg out ct tag Bn Bd Bm Ee data' msg' out' Hd' Bm' Lm' Lo' H ct' tag'.
  assert (Hargs : ~ (length msg <> length out \/ length nonce <> 12%nat \/ 2 ^ 36 - 32 <= len msg \/ 2 ^ 61 <= len data)).
  { intros Hx. rewrite (proj1 (P_Gcm.gcm_bad_args E b k msg nonce data [] out Hx)) in Ee. discriminate. }
  assert (Hn : length nonce = 12%nat) by lia.
  assert (Hlim : b = Unchecked \/ len msg <= checked_limit).
  { destruct b; [right|now left]. destruct (Z.le_gt_cases (len msg) checked_limit) as [|Hgt]; [assumption|].
    rewrite (P_Gcm.gcm_encrypt_panic E k HE nonce Hn Bn) in Ee by (try exact Hgt; try assumption; lia). discriminate. }
  assert (Hlim' : b = Unchecked \/ len msg' <= checked_limit) by (destruct Hlim; [left; assumption|right; unfold len in *; lia]).
  assert (Gm' : gcm_message msg') by (split; [exact Bm'|unfold len in *; lia]).
  pose proof (C30_gcm_is_sp800_38d E k HE b nonce data' msg' out' (conj Hn Bn) Hd' Gm' Lo' Hlim') as E2. cbv zeta in E2.
  set (c2 := gcm_ciphertext (bc_permute E k) nonce msg') in *. set (t2 := gcm_auth_tag (bc_permute E k) nonce data' c2) in *.
  pose proof (C65_gcm_nonce_reuse E k HE b b nonce data data' msg msg' out out' ct tag c2 t2 Bn Bd (proj1 Hd') Bm Bm' Ee E2) as (X & L1 & _).
  pose proof (C65_gcm_nonce_reuse E k HE b b nonce data' data' msg' msg' out' out' c2 t2 c2 t2 Bn (proj1 Hd') (proj1 Hd') Bm' Bm' E2 E2) as (_ & L2 & _).
  assert (EC : ct' = c2) by (symmetry; apply xorl_solve; assumption).
  destruct (C35_counter_blocks_distinct E k HE b nonce data msg out ct tag Bn Bd Bm Ee) as (_ & _ & T1 & _).
  destruct (C35_counter_blocks_distinct E k HE b nonce data' msg' out' c2 t2 Bn (proj1 Hd') Bm' E2) as (_ & _ & T2 & _).
  assert (ET : tag' = t2).
  { unfold tag'. rewrite EC, T1, T2. fold H.
    assert (LH : forall X, length (GHASH H X) = 16%nat) by (intros; apply P_Ghash.poly_block_ok).
    assert (LJ : length (bc_permute E k (J0 nonce)) = 16%nat).
    { apply HE. split; [unfold J0; rewrite app_length; cbn [length]; lia|]. apply BaseFacts.bytes_app. split; [exact Bn|]. apply BaseFacts.bytesb_spec. reflexivity. }
    pose proof (LH (ghash_input data ct)) as l1. pose proof (LH (ghash_input data' c2)) as l2. clear -l1 l2 LJ.
    generalize dependent (GHASH H (ghash_input data ct)). generalize dependent (GHASH H (ghash_input data' c2)).
    generalize dependent (bc_permute E k (J0 nonce)). clear. intros j Lj g2 L2 g1 L1.
    apply xorl_cancel3; congruence. }
  rewrite EC, ET. apply (C31_roundtrip E k HE b b nonce data' msg' out' out' c2 t2 Bn (proj1 Hd') Bm' E2); [now left|exact Lo'].
Qed.
Print Assumptions C89_gcm_hash_key_forges.


(** The same for ChaCha20-Poly1305, with the Poly1305 point r.  [tag_part] is what the program adds to the second half of the one-time key
    (for the RFC's tags it is [poly1305_acc]). *)
Definition tag_part (r : Z) (aad ciphertext : list Z) : Z :=
  let v := poly1305_acc r (mac_data aad ciphertext) in
  if lazy_acc r (mac_data aad ciphertext) <? P1305 then v else faulty_acc v.
Theorem C89_ccp_point_forges : forall b key nonce data msg out ct tag,
  chacha_key key -> bytes nonce -> is_slice data -> is_slice msg -> ccp_encrypt b key msg nonce data out = Ok (ct, tag) ->
  forall data' msg' out', is_slice data' -> bytes msg' -> (length msg' <= length msg)%nat -> length out' = length msg' ->
  let r := poly_r key nonce in
  let ct' := xorl msg' (xorl ct msg) in
  let tag' := le_encode 16 (le_decode tag - tag_part r data ct + tag_part r data' ct') in
  ccp_decrypt b key ct' nonce data' tag' out' = Ok (msg', true).
Proof.
  intros b key nonce data msg out ct tag Hk Bn Hd Hm Ee data' msg' out' Hd' Bm' Lm' Lo' r ct' tag'.
  assert (Hn : length nonce = 12%nat).
  { destruct (Nat.eq_dec (length nonce) 12) as [|Hx]; [assumption|]. rewrite P_Ccp.encrypt_bad_args in Ee by (first [apply Hk | auto]). discriminate. }
  assert (Hl : length out = length msg).
  { destruct (Nat.eq_dec (length msg) (length out)) as [|Hx]; [congruence|]. rewrite P_Ccp.encrypt_bad_args in Ee by (first [apply Hk | auto]). discriminate. }
  assert (Hlim : b = Unchecked \/ len msg <= P_Ccp.LIM).
  { destruct b; [right|now left]. destruct (Z.le_gt_cases (len msg) P_Ccp.LIM) as [|Hgt]; [assumption|].
    rewrite P_Ccp.encrypt_panic in Ee by (try exact Hgt; try apply Hk; try assumption). discriminate. }
  assert (Hlim' : b = Unchecked \/ len msg' <= P_Ccp.LIM) by (destruct Hlim; [left; assumption|right; unfold len in *; lia]).
  assert (Hm' : is_slice msg') by (split; [exact Bm'|destruct Hm; unfold len in *; lia]).
  destruct (P_Ccp.encrypt_ok key nonce (proj1 Hk) Hn (proj2 Hk) Bn msg' data' Bm' (proj1 Hd') (proj2 Hd') (proj2 Hm')) as (t2 & _ & _ & _ & _ & E2).
  specialize (E2 b out' Lo' Hlim'). set (c2 := P_Ccp.crypt key nonce msg') in *.
  pose proof (C65_ccp_nonce_reuse b b key nonce data data' msg msg' out out' ct tag c2 t2 Hk Bn Hd Hd' Hm Hm' Ee E2) as (X & L1 & _).
  pose proof (C65_ccp_nonce_reuse b b key nonce data' data' msg' msg' out' out' c2 t2 c2 t2 Hk Bn Hd' Hd' Hm' Hm' E2 E2) as (_ & L2 & _).
  assert (EC : ct' = c2) by (symmetry; apply xorl_solve; assumption).
  destruct (T_PolyExact.C21_tag_exactly b key nonce data msg out ct tag Hk (conj Hn Bn) Hd Hm Ee) as (T1 & _).
  destruct (T_PolyExact.C21_tag_exactly b key nonce data' msg' out' c2 t2 Hk (conj Hn Bn) Hd' Hm' E2) as (T2 & _).
  set (s := le_decode (skipn 16 (one_time_key key nonce))).
  assert (PT : forall d c, program_tag key nonce d c = le_encode 16 (tag_part r d c + s)).
  { intros d c. unfold program_tag, tag_part, rfc8439_tag, faulty_tag, rfc8439_acc, poly1305_mac, r, poly_r, s. cbv zeta.
    destruct (_ <? _); reflexivity. }
  assert (ET : tag' = t2).
  { unfold tag'. rewrite EC, T1, T2, !PT. rewrite BaseFacts.le_decode_encode.
    rewrite <- (BaseFacts.le_encode_mod 16 (_ - _ + _)), <- (BaseFacts.le_encode_mod 16 (tag_part r data' c2 + s)). f_equal.
    rewrite <- Z.add_mod_idemp_l by (apply Z.pow_nonzero; lia). rewrite Zminus_mod_idemp_l.
    rewrite Z.add_mod_idemp_l by (apply Z.pow_nonzero; lia). f_equal. lia. }
  rewrite EC, ET.
  apply (T_Ccp.C18_roundtrip b b key nonce data' msg' out' out' c2 t2 Hk (conj Hn Bn) Hd' Hm' E2); [now left|exact Lo'].
Qed.
Print Assumptions C89_ccp_point_forges.
Example C89_ex : (exists k ct tag, gcm_new Aes128 ex_key = Ok k /\ block_cipher Aes128 k /\
    gcm_encrypt Aes128 Checked k (s2b "pay 1 to Bob") ex_nonce [] (repeat 0 12) = Ok (ct, tag)) /\
  exists ct tag, ccp_encrypt Checked T_Ccp.ex_key (s2b "pay 1 to Bob") T_Ccp.ex_nonce [] (repeat 0 12) = Ok (ct, tag).
Proof.
  split.
  - destruct gcm_new_ok as [k Ek]. pose proof (aes128_cipher k Ek) as HE. exists k.
    do 2 eexists. split; [exact Ek|]. split; [exact HE|].
    apply (C30_gcm_is_sp800_38d Aes128 k HE); try (right; apply Z.leb_le; reflexivity); try reflexivity; try ok_bytes.
  - destruct (P_Ccp.encrypt_ok T_Ccp.ex_key T_Ccp.ex_nonce eq_refl eq_refl) with (msg := s2b "pay 1 to Bob") (data := @nil Z) as (t & _ & _ & _ & _ & E);
      try (apply BaseFacts.bytesb_spec; reflexivity); try (apply Z.ltb_lt; reflexivity).
    do 2 eexists. apply E; [reflexivity|right; apply Z.leb_le; reflexivity].
Qed.
